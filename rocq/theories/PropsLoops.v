(** * PropsLoops: layout, indexing and blocks (C13-C16)

    All theorems of this file hold for every scalar type [T] with any
    operations at all (floats with NaN included): no law is assumed. *)

From Coq Require Import List Arith Lia Bool ZArith.
From Verif Require Import Base Scalar Vec Mat2 Mat3 Mat4 Mat5 Mat6 Slices MatLoops MatOps
  RingDet Spec LoopFacts InstZ.
From Verif Require Import ProofsLoops.
(** Concrete cases meeting the hypotheses: the Examples of ProofsLoops.v and of Cases.v. *)
Import ListNotations.
Open Scope sc_scope.

Section Any.
Context {T : Type} {nT : Num T}.

Theorem C13_get_rows : forall d (m : mat T (dimn d)),
  exists rows, d_get_rows d m = Ok rows /\
  forall i j, i < dimn d -> j < dimn d -> (r <- aget rows i ;; aget r j) = mget m i j.
Proof. exact c13_get_rows. Qed.
Print Assumptions C13_get_rows.

Theorem C13_get_cols : forall d (m : mat T (dimn d)),
  exists cols, d_get_cols d m = Ok cols /\
  forall i j, i < dimn d -> j < dimn d -> (c <- aget cols j ;; aget c i) = mget m i j.
Proof. exact c13_get_cols. Qed.
Print Assumptions C13_get_cols.

Theorem C13_new_from_vecs : forall d (cols : arr (arr T (dimn d)) (dimn d)),
  exists m, d_new_from_vecs d cols = Ok m /\
  forall i j, i < dimn d -> j < dimn d -> mget m i j = (c <- aget cols j ;; aget c i).
Proof. exact c13_new_from_vecs. Qed.
Print Assumptions C13_new_from_vecs.

Theorem C13_cols_round_trip : forall d (m : mat T (dimn d)),
  (cols <- d_get_cols d m ;; d_new_from_vecs d cols) = Ok m.
Proof. exact c13_cols_round_trip. Qed.
Print Assumptions C13_cols_round_trip.

Theorem C13_as_vec : forall d (m : mat T (dimn d)),
  exists v, d_as_vec d m = Ok v /\
  forall i j, i < dimn d -> j < dimn d -> aget v (i * dimn d + j) = mget m i j.
Proof. exact c13_as_vec. Qed.
Print Assumptions C13_as_vec.

Theorem C13_get_diagonal : forall d (m : mat T (dimn d)),
  exists v, d_get_diagonal d m = Ok v /\ forall i, i < dimn d -> aget v i = mget m i i.
Proof. exact c13_get_diagonal. Qed.
Print Assumptions C13_get_diagonal.

Theorem C13_get_upper_triangular :
  (forall m : M33 T, exists v, get_upper_triangular 3 m = Ok v
     /\ map Ok (alist v) = row_major 3 Nat.ltb m)
  /\ (forall m : M44 T, exists v, get_upper_triangular 6 m = Ok v
     /\ map Ok (alist v) = row_major 4 Nat.ltb m)
  /\ (forall m : M55 T, exists v, get_upper_triangular 10 m = Ok v
     /\ map Ok (alist v) = row_major 5 Nat.ltb m)
  /\ (forall m : M66 T, exists v, get_upper_triangular 15 m = Ok v
     /\ map Ok (alist v) = row_major 6 Nat.ltb m).
Proof. exact c13_get_upper_triangular. Qed.
Print Assumptions C13_get_upper_triangular.

Theorem C13_get_lower_triangular :
  (forall m : M33 T, exists v, get_lower_triangular 3 m = Ok v
     /\ map Ok (alist v) = row_major 3 (fun i j => Nat.ltb j i) m)
  /\ (forall m : M44 T, exists v, get_lower_triangular 6 m = Ok v
     /\ map Ok (alist v) = row_major 4 (fun i j => Nat.ltb j i) m)
  /\ (forall m : M55 T, exists v, get_lower_triangular 10 m = Ok v
     /\ map Ok (alist v) = row_major 5 (fun i j => Nat.ltb j i) m)
  /\ (forall m : M66 T, exists v, get_lower_triangular 15 m = Ok v
     /\ map Ok (alist v) = row_major 6 (fun i j => Nat.ltb j i) m).
Proof. exact c13_get_lower_triangular. Qed.
Print Assumptions C13_get_lower_triangular.

(** *** C14 *)
Theorem C14_for_each_entry : forall n (m : mat T n) f,
  exists r, for_each m f = Ok r /\
  forall i j, i < n -> j < n -> mget r i j = (x <- mget m i j ;; Ok (f x)).
Proof. exact c14_for_each_entry. Qed.
Print Assumptions C14_for_each_entry.

Theorem C14_for_each_id : forall n (m : mat T n), for_each m (fun x => x) = Ok m.
Proof. exact c14_for_each_id. Qed.
Print Assumptions C14_for_each_id.

Theorem C14_for_each_compose : forall n (m : mat T n) f g,
  (r <- for_each m f ;; for_each r g) = for_each m (fun x => g (f x)).
Proof. exact c14_for_each_compose. Qed.
Print Assumptions C14_for_each_compose.

(** [skip i] enumerates, in increasing order, exactly the indices other than [i] *)
Theorem C16_skip_spec : forall i n, i < S n ->
  map (skip i) (seq 0 n) = filter (fun k => negb (Nat.eqb k i)) (seq 0 (S n)).
Proof. exact c16_skip_spec. Qed.
Print Assumptions C16_skip_spec.

Theorem C16_get_submatrix : forall (m4 : M44 T) (m5 : M55 T) (m6 : M66 T) i j,
  (i < 4 -> j < 4 -> exists s, m44_get_submatrix m4 (i, j) = Ok s /\
     forall a b, a < 3 -> b < 3 -> mget s a b = mget m4 (skip i a) (skip j b))
  /\ (i < 5 -> j < 5 -> exists s, m55_get_submatrix m5 (i, j) = Ok s /\
     forall a b, a < 4 -> b < 4 -> mget s a b = mget m5 (skip i a) (skip j b))
  /\ (i < 6 -> j < 6 -> exists s, m66_get_submatrix m6 (i, j) = Ok s /\
     forall a b, a < 5 -> b < 5 -> mget s a b = mget m6 (skip i a) (skip j b)).
Proof. exact c16_get_submatrix. Qed.
Print Assumptions C16_get_submatrix.

Theorem C16_get_submatrix_panic : forall (m4 : M44 T) (m5 : M55 T) (m6 : M66 T) i j,
  (4 <= i \/ 4 <= j -> m44_get_submatrix m4 (i, j) = Panic)
  /\ (5 <= i \/ 5 <= j -> m55_get_submatrix m5 (i, j) = Panic)
  /\ (6 <= i \/ 6 <= j -> m66_get_submatrix m6 (i, j) = Panic).
Proof. exact c16_get_submatrix_panic. Qed.
Print Assumptions C16_get_submatrix_panic.

Theorem C16_copy_elements : forall (m : M66 T) (r : M33 T) q, 1 <= q <= 4 ->
  exists m', m66_copy_elements_from m r q = Ok m' /\
  forall i j, i < 6 -> j < 6 ->
    mget m' i j = if in_quadrant q i j then mget r (i mod 3) (j mod 3) else mget m i j.
Proof. exact c16_copy_elements. Qed.
Print Assumptions C16_copy_elements.

Theorem C16_copy_elements_panic : forall (m : M66 T) (r : M33 T) q,
  q = 0 \/ 4 < q -> m66_copy_elements_from m r q = Panic.
Proof. exact c16_copy_elements_panic. Qed.
Print Assumptions C16_copy_elements_panic.

End Any.

(** *** C15: any element type *)
Theorem C15_read_in_range : forall U n (m : mat U n) i j,
  (exists x, mget m i j = Ok x) <-> i < n /\ j < n.
Proof. exact c15_read_in_range. Qed.
Print Assumptions C15_read_in_range.

Theorem C15_read_out_of_range : forall U n (m : mat U n) i j,
  n <= i \/ n <= j -> mget m i j = Panic.
Proof. exact c15_read_out_of_range. Qed.
Print Assumptions C15_read_out_of_range.

Theorem C15_write_in_range : forall U n (m : mat U n) i j x, i < n -> j < n ->
  exists m', mset m i j x = Ok m' /\ mget m' i j = Ok x /\
  forall a b, (a, b) <> (i, j) -> mget m' a b = mget m a b.
Proof. exact c15_write_in_range. Qed.
Print Assumptions C15_write_in_range.

Theorem C15_write_out_of_range : forall U n (m : mat U n) i j x,
  n <= i \/ n <= j -> mset m i j x = Panic.
Proof. exact c15_write_out_of_range. Qed.
Print Assumptions C15_write_out_of_range.

(** vectors *)
Theorem C15_vector : forall U n (v : arr U n) i x,
  ((exists y, aget v i = Ok y) <-> i < n)
  /\ (i < n -> exists w, aset v i x = Ok w /\ aget w i = Ok x
        /\ forall a, a <> i -> aget w a = aget v a)
  /\ (n <= i -> aget v i = Panic /\ aset v i x = Panic).
Proof. exact c15_vector. Qed.
Print Assumptions C15_vector.
