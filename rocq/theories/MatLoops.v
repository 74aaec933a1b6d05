(** * MatLoops: the matrix methods written as loops

    These bodies are textually the same in matrix2x2.rs .. matrix6x6.rs up to
    the size, so each is modelled once for every size [n]; MatOps.v instantiates
    them. Simplification: the array lengths that Rust fixes by type ([n*n], ...)
    are the parameter [k]. *)

From Coq Require Import List Bool Arith.
From Verif Require Import Base Scalar Slices.
Import ListNotations.
Open Scope sc_scope.

Section MatLoops.
Context {T : Type} {nT : Num T} {sT : Signed T} {oT : POrd T} {fT : Float T}.

(** matrix2x2.rs:153-159, matrix3x3.rs:225-231, matrix4x4.rs:300-306,
    matrix5x5.rs:882-888, matrix6x6.rs:1633-1639, [as_vec]; the result has
    length [k]. *)
Definition as_vec {n} (k : nat) (self : mat T n) : outcome (arr T k) :=
  let cells := concat (map alist (alist self)) in
  for_in (combine (seq 0 (length cells)) cells) (amake k zero)
    (fun ie result => let ' (index, element) := ie in aset result index element).

(** matrix2x2.rs:173-185, matrix3x3.rs:246-258, matrix4x4.rs:321-333,
    matrix5x5.rs:904-916, matrix6x6.rs:1642-1654, [get_diagonal]
    ([sel i j] is [i == j], [k = n]);
    matrix3x3.rs:260-273, matrix4x4.rs:390-403, matrix5x5.rs:975-988,
    matrix6x6.rs:1733-1746, [get_upper_triagular] ([sel] is [i < j]);
    matrix3x3.rs:275-288, matrix4x4.rs:405-418, matrix5x5.rs:990-1003,
    matrix6x6.rs:1748-1761, [get_lower_triangular] ([sel] is [i > j]):
    the same loop with a different test. *)
Definition collect {n} (sel : nat -> nat -> bool) (k : nat) (self : mat T n)
  : outcome (arr T k) :=
  ' (result, index) <-
    for_ 0 n (amake k zero, 0) (fun i st =>
      for_ 0 n st (fun j st =>
        let ' (result, index) := st in
        if sel i j then
          x <- mget self i j ;;
          result <- aset result index x ;;
          Ok (result, S index)
        else Ok (result, index))) ;;
  Ok result.

Definition get_diagonal {n} (self : mat T n) : outcome (arr T n) :=
  collect Nat.eqb n self.
Definition get_upper_triangular {n} (k : nat) (self : mat T n) : outcome (arr T k) :=
  collect Nat.ltb k self.
Definition get_lower_triangular {n} (k : nat) (self : mat T n) : outcome (arr T k) :=
  collect (fun i j => Nat.ltb j i) k self.

(** matrix4x4.rs:337-358, matrix5x5.rs:919-939, matrix6x6.rs:1673-1693,
    [get_submatrix]: size [n] to size [m] (= n-1) through a buffer of [k]
    (= m*m) cells. *)
Definition get_submatrix {n} (m k : nat) (self : mat T n) (selected : nat * nat)
  : outcome (mat T m) :=
  values <- collect (fun i j => negb (Nat.eqb i (fst selected) || Nat.eqb j (snd selected)))
              k self ;;
  ' (result, index) <-
    for_ 0 m (amake m (amake m zero), 0) (fun r st =>
      for_ 0 m st (fun c st =>
        let ' (result, index) := st in
        x <- aget values index ;;
        result <- mset result r c x ;;
        Ok (result, S index))) ;;
  Ok result.

(** matrix2x2.rs:272-280, matrix3x3.rs:291-299, matrix4x4.rs:421-429,
    matrix5x5.rs:1006-1014, matrix6x6.rs:1764-1772, [for_each] (the closure is
    a pure function). *)
Definition for_each {n} (self : mat T n) (f : T -> T) : outcome (mat T n) :=
  for_ 0 n (amake n (amake n zero)) (fun i result =>
    for_ 0 n result (fun j result =>
      x <- mget self i j ;; mset result i j (f x))).

(** ** LU factorization

    matrix2x2.rs:285-340, matrix3x3.rs:157-210, matrix4x4.rs:232-285,
    matrix5x5.rs:319-372, matrix6x6.rs:952-1005, [lu], split in its two loops. *)

(** first loop ("for i in 0..N", e.g. matrix2x2.rs:293-304): the scaling
    vector; [big] is not reset between rows; panics while [big] is zero. *)
Definition lu_scaling {n} (lu : mat T n) (vv : arr T n) : outcome (arr T n) :=
  ' (vv, big) <-
    for_ 0 n (vv, zero) (fun i st =>
      let ' (vv, big) := st in
      big <- for_ 0 n big (fun j big =>
        x <- mget lu i j ;;
        let temp := abs x in
        Ok (if big <? temp then temp else big)) ;;
      if big =? zero then Panic
      else
        vv <- aset vv i (recip big) ;;
        Ok (vv, big)) ;;
  Ok vv.

(** pivot search of column [k] (e.g. matrix2x2.rs:306-314). *)
Definition lu_pivot {n} (lu : mat T n) (vv : arr T n) (k : nat) : outcome nat :=
  ' (big, i_max) <-
    for_ k n (zero, k) (fun i st =>
      let ' (big, i_max) := st in
      v <- aget vv i ;; x <- mget lu i k ;;
      let temp := v * abs x in
      Ok (if big <? temp then (temp, i) else (big, i_max))) ;;
  Ok i_max.

(** row exchange (e.g. matrix2x2.rs:317-322). *)
Definition lu_swap {n} (lu : mat T n) (k i_max : nat) : outcome (mat T n) :=
  for_ 0 n lu (fun j lu =>
    temp <- mget lu i_max j ;;
    x <- mget lu k j ;;
    lu <- mset lu i_max j x ;;
    mset lu k j temp).

(** elimination below row [k] (e.g. matrix2x2.rs:330-335). *)
Definition lu_eliminate {n} (lu : mat T n) (k : nat) : outcome (mat T n) :=
  for_ (k + 1)%nat n lu (fun i lu =>
    a <- mget lu i k ;; p <- mget lu k k ;;
    lu <- mset lu i k (a / p) ;;
    for_ (k + 1)%nat n lu (fun j lu =>
      x <- mget lu i j ;; f <- mget lu i k ;; y <- mget lu k j ;;
      mset lu i j (x - f * y))).

(** body of the second loop (e.g. matrix2x2.rs:305-336). *)
Definition lu_step {n} (k : nat) (st : mat T n * arr T n * T * arr nat n)
  : outcome (mat T n * arr T n * T * arr nat n) :=
  let tiny := lit_1em40 in
  let ' (lu, vv, d, indx) := st in
  i_max <- lu_pivot lu vv k ;;
  ' (lu, vv, d) <-
    (if negb (Nat.eqb k i_max) then
       lu <- lu_swap lu k i_max ;;
       v <- aget vv k ;; vv <- aset vv i_max v ;;
       Ok (lu, vv, - d)
     else Ok (lu, vv, d)) ;;
  indx <- aset indx k i_max ;;
  p <- mget lu k k ;;
  lu <- (if p =? zero then mset lu k k tiny else Ok lu) ;;
  lu <- lu_eliminate lu k ;;
  Ok (lu, vv, d, indx).

(** The two loops; returns the packed factors, the sign [d] and the row
    exchanges. The final product of the diagonal is in MatOps.v. *)
Definition lu_factor {n} (self : mat T n) : outcome (mat T n * T * arr nat n) :=
  let indx := amake n 0 in
  let lu := self in
  let vv := amake n zero in
  let d := one in
  vv <- lu_scaling lu vv ;;
  ' (lu, vv, d, indx) <- for_ 0 n (lu, vv, d, indx) lu_step ;;
  Ok (lu, d, indx).

(** ** QR factorization: the Gram-Schmidt loop

    matrix2x2.rs:119-138, matrix3x3.rs:133-152, matrix4x4.rs:207-226,
    matrix5x5.rs:295-314, matrix6x6.rs:926-946, the loop of [qr]. [sub_assign]
    and [scale] are the vector operations [-=] and [*] of that size. *)
Definition qr_basis {n} (sub_assign : arr T n -> arr T n -> arr T n)
  (scale : arr T n -> T -> arr T n) (cols q : arr (arr T n) n)
  : outcome (arr (arr T n) n) :=
  for_ 0 n q (fun i q =>
    c <- aget cols i ;;
    q_tilde <- for_in (firstn i (alist q)) c (fun elem q_tilde =>
      ci <- aget cols i ;;
      p <- project_x_over_y (alist ci) (alist elem) ;;
      Ok (sub_assign q_tilde (scale elem p))) ;;
    let q_tilde := normalize q_tilde in
    aset q i q_tilde).

End MatLoops.
