(** * Mat2: M22 (matrix2x2.rs)

    Arithmetic of the 2x2 matrices.
    Straight-line bodies transcribed from the Rust text keeping every operation
    and its association; simplifications: newtypes are erased, references and
    [Copy] are ignored. *)

From Verif Require Import Base Scalar Vec.
Open Scope sc_scope.


(** matrix2x2.rs:440-442, [impl<T: Num + Copy> Zero for M22<T>] (also [zeros()]) *)
Definition m22_zeros {T} `{Num T} : M22 T :=
  amake 2 (amake 2 zero).

(** matrix2x2.rs:451-455, [impl<T: Num + Copy> One for M22<T>] (also [identity()]) *)
Definition m22_identity {T} `{Num T} : M22 T :=
  let one := one in
  let zero := zero in
  [|[|one; zero|]; [|zero; one|]|].

(** matrix2x2.rs:207-212, [impl<T: Num + Copy> Add for M22<T>] *)
Definition m22_add {T} `{Num T} (self : M22 T) (rhs : M22 T) : M22 T :=
  [|
  [|self.[0].[0] + rhs.[0].[0]; self.[0].[1] + rhs.[0].[1]|];
  [|self.[1].[0] + rhs.[1].[0]; self.[1].[1] + rhs.[1].[1]|]|].

(** matrix2x2.rs:228-233, [impl<T: Num + Copy> Sub for M22<T>] *)
Definition m22_sub {T} `{Num T} (self : M22 T) (rhs : M22 T) : M22 T :=
  [|
  [|self.[0].[0] - rhs.[0].[0]; self.[0].[1] - rhs.[0].[1]|];
  [|self.[1].[0] - rhs.[1].[0]; self.[1].[1] - rhs.[1].[1]|]|].

(** matrix2x2.rs:430-435, [impl<T: Num + Copy + Signed> Neg for M22<T>] *)
Definition m22_neg {T} `{Signed T} (self : M22 T) : M22 T :=
  [|
  [|-self.[0].[0]; -self.[0].[1]|];
  [|-self.[1].[0]; -self.[1].[1]|]|].

(** matrix2x2.rs:382-387, [impl<T: Num + Copy> Mul<T> for M22<T>] *)
Definition m22_scale {T} `{Num T} (self : M22 T) (rhs : T) : M22 T :=
  [|
  [|self.[0].[0] * rhs; self.[0].[1] * rhs|];
  [|self.[1].[0] * rhs; self.[1].[1] * rhs|]|].

(** matrix2x2.rs:394-399, [impl<T: Num + Copy> Div<T> for M22<T>] *)
Definition m22_div {T} `{Num T} (self : M22 T) (rhs : T) : M22 T :=
  [|
  [|self.[0].[0] / rhs; self.[0].[1] / rhs|];
  [|self.[1].[0] / rhs; self.[1].[1] / rhs|]|].

(** matrix2x2.rs:407-422, [impl<T: Num + Copy> Mul for M22<T>] *)
Definition m22_mul {T} `{Num T} (self : M22 T) (rhs : M22 T) : M22 T :=
  let a1 := self.[0].[0] in
  let b1 := self.[0].[1] in
  let c1 := self.[1].[0] in
  let d1 := self.[1].[1] in
  let a2 := rhs.[0].[0] in
  let b2 := rhs.[0].[1] in
  let c2 := rhs.[1].[0] in
  let d2 := rhs.[1].[1] in
  [|
  [|a1 * a2 + b1 * c2; a1 * b2 + b1 * d2|];
  [|c1 * a2 + d1 * c2; c1 * b2 + d1 * d2|]|].

(** matrix2x2.rs:194-199, [impl<T: Num + Copy> Mul<V2<T>> for M22<T>] *)
Definition m22_mul_v {T} `{Num T} (self : M22 T) (rhs : V2 T) : V2 T :=
  [|
  self.[0].[0] * rhs.[0] + self.[0].[1] * rhs.[1];
  self.[1].[0] * rhs.[0] + self.[1].[1] * rhs.[1]|].

(** matrix2x2.rs:369-374, [impl Mul<M22<f32>> for f32] (f32 in the source) *)
Definition m22_lscale {T} `{Num T} (self : T) (rhs : M22 T) : M22 T :=
  [|
  [|rhs.[0].[0] * self; rhs.[0].[1] * self|];
  [|rhs.[1].[0] * self; rhs.[1].[1] * self|]|].

(** matrix2x2.rs:84-86, [impl<T: Float + core::iter::Sum> LinearAlgebra<T> for M22<T>] *)
Definition m22_transpose {T}  (self : M22 T) : M22 T :=
  [|[|self.[0].[0]; self.[1].[0]|]; [|self.[0].[1]; self.[1].[1]|]|].

(** matrix2x2.rs:89-91, [impl<T: Float + core::iter::Sum> LinearAlgebra<T> for M22<T>] *)
Definition m22_trace {T} `{Num T} (self : M22 T) : T :=
  self.[0].[0] + self.[1].[1].

(** matrix2x2.rs:94-101, [impl<T: Float + core::iter::Sum> LinearAlgebra<T> for M22<T>] *)
Definition m22_norm2 {T} `{Num T} `{Float T} (self : M22 T) : T :=
  fsqrt (
  self.[0].[0] * self.[0].[0]
  + self.[0].[1] * self.[0].[1]
  + self.[1].[0] * self.[1].[0]
  + self.[1].[1] * self.[1].[1]).

(** matrix2x2.rs:79-81, [impl<T: Float + core::iter::Sum> LinearAlgebra<T> for M22<T>] *)
Definition m22_det {T} `{Num T} (self : M22 T) : T :=
  (self.[0].[0] * self.[1].[1]) - (self.[1].[0] * self.[0].[1]).

(** matrix2x2.rs:218-220, [+=] : [*self = *self + other] *)
Definition m22_add_assign {T} `{Num T} (self other : M22 T) : M22 T :=
  m22_add self other.

(** matrix2x2.rs:239-241, [-=] : [*self = *self - other] *)
Definition m22_sub_assign {T} `{Num T} (self other : M22 T) : M22 T :=
  m22_sub self other.

(** matrix2x2.rs:444-446, [is_zero] (derived [PartialEq]) *)
Definition m22_is_zero {T} `{Num T} (self : M22 T) : bool :=
  aeqb (aeqb eqb) self m22_zeros.

(** matrix2x2.rs:246-256, [get_rows] *)
Definition m22_get_rows {T} `{Num T} (self : M22 T) : outcome (arr (V2 T) 2) :=
  ' (r0, r1) <- for_ 0 2 (v2_zeros, v2_zeros) (fun j st =>
    let ' (r0, r1) := st in
    x <- mget self 0 j ;; r0 <- aset r0 j x ;;
    x <- mget self 1 j ;; r1 <- aset r1 j x ;;
    Ok (r0, r1)) ;;
  Ok [| r0; r1 |].

(** matrix2x2.rs:259-269, [get_cols] *)
Definition m22_get_cols {T} `{Num T} (self : M22 T) : outcome (arr (V2 T) 2) :=
  ' (c0, c1) <- for_ 0 2 (v2_zeros, v2_zeros) (fun i st =>
    let ' (c0, c1) := st in
    x <- mget self i 0 ;; c0 <- aset c0 i x ;;
    x <- mget self i 1 ;; c1 <- aset c1 i x ;;
    Ok (c0, c1)) ;;
  Ok [| c0; c1 |].

(** matrix2x2.rs:162-170, [new_from_vecs] *)
Definition m22_new_from_vecs {T} `{Num T} (cols : arr (V2 T) 2) : outcome (M22 T) :=
  for_ 0 2 m22_zeros (fun i result =>
    x <- aget cols.[0] i ;; result <- mset result i 0 x ;;
    x <- aget cols.[1] i ;; result <- mset result i 1 x ;;
    Ok result).
