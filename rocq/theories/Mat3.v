(** * Mat3: M33 (matrix3x3.rs)

    Arithmetic of the 3x3 matrices.
    Straight-line bodies transcribed from the Rust text keeping every operation
    and its association; simplifications: newtypes are erased, references and
    [Copy] are ignored. *)

From Verif Require Import Base Scalar Vec.
Open Scope sc_scope.


(** matrix3x3.rs:550-552, [impl<T: Num + Copy> Zero for M33<T>] (also [zeros()]) *)
Definition m33_zeros {T} `{Num T} : M33 T :=
  amake 3 (amake 3 zero).

(** matrix3x3.rs:561-565, [impl<T: Num + Copy> One for M33<T>] (also [identity()]) *)
Definition m33_identity {T} `{Num T} : M33 T :=
  let one := one in
  let zero := zero in
  [|[|one; zero; zero|]; [|zero; one; zero|]; [|zero; zero; one|]|].

(** matrix3x3.rs:336-354, [impl<T: Num + Copy> Add for M33<T>] *)
Definition m33_add {T} `{Num T} (self : M33 T) (rhs : M33 T) : M33 T :=
  [|
  [|
  self.[0].[0] + rhs.[0].[0];
  self.[0].[1] + rhs.[0].[1];
  self.[0].[2] + rhs.[0].[2]|];
  [|
  self.[1].[0] + rhs.[1].[0];
  self.[1].[1] + rhs.[1].[1];
  self.[1].[2] + rhs.[1].[2]|];
  [|
  self.[2].[0] + rhs.[2].[0];
  self.[2].[1] + rhs.[2].[1];
  self.[2].[2] + rhs.[2].[2]|]|].

(** matrix3x3.rs:368-386, [impl<T: Num + Copy> Sub for M33<T>] *)
Definition m33_sub {T} `{Num T} (self : M33 T) (rhs : M33 T) : M33 T :=
  [|
  [|
  self.[0].[0] - rhs.[0].[0];
  self.[0].[1] - rhs.[0].[1];
  self.[0].[2] - rhs.[0].[2]|];
  [|
  self.[1].[0] - rhs.[1].[0];
  self.[1].[1] - rhs.[1].[1];
  self.[1].[2] - rhs.[1].[2]|];
  [|
  self.[2].[0] - rhs.[2].[0];
  self.[2].[1] - rhs.[2].[1];
  self.[2].[2] - rhs.[2].[2]|]|].

(** matrix3x3.rs:534-546, [impl<T: Num + Copy + Signed> Neg for M33<T>] *)
Definition m33_neg {T} `{Signed T} (self : M33 T) : M33 T :=
  let a_00 := -self.[0].[0] in
  let a_01 := -self.[0].[1] in
  let a_02 := -self.[0].[2] in
  let a_10 := -self.[1].[0] in
  let a_11 := -self.[1].[1] in
  let a_12 := -self.[1].[2] in
  let a_20 := -self.[2].[0] in
  let a_21 := -self.[2].[1] in
  let a_22 := -self.[2].[2] in
  [|[|a_00; a_01; a_02|]; [|a_10; a_11; a_12|]; [|a_20; a_21; a_22|]|].

(** matrix3x3.rs:427-439, [impl<T: Num + Copy> Mul<T> for M33<T>] *)
Definition m33_scale {T} `{Num T} (self : M33 T) (rhs : T) : M33 T :=
  let a_00 := self.[0].[0] * rhs in
  let a_01 := self.[0].[1] * rhs in
  let a_02 := self.[0].[2] * rhs in
  let a_10 := self.[1].[0] * rhs in
  let a_11 := self.[1].[1] * rhs in
  let a_12 := self.[1].[2] * rhs in
  let a_20 := self.[2].[0] * rhs in
  let a_21 := self.[2].[1] * rhs in
  let a_22 := self.[2].[2] * rhs in
  [|[|a_00; a_01; a_02|]; [|a_10; a_11; a_12|]; [|a_20; a_21; a_22|]|].

(** matrix3x3.rs:446-458, [impl<T: Num + Copy> Div<T> for M33<T>] *)
Definition m33_div {T} `{Num T} (self : M33 T) (rhs : T) : M33 T :=
  let a_00 := self.[0].[0] / rhs in
  let a_01 := self.[0].[1] / rhs in
  let a_02 := self.[0].[2] / rhs in
  let a_10 := self.[1].[0] / rhs in
  let a_11 := self.[1].[1] / rhs in
  let a_12 := self.[1].[2] / rhs in
  let a_20 := self.[2].[0] / rhs in
  let a_21 := self.[2].[1] / rhs in
  let a_22 := self.[2].[2] / rhs in
  [|[|a_00; a_01; a_02|]; [|a_10; a_11; a_12|]; [|a_20; a_21; a_22|]|].

(** matrix3x3.rs:504-527, [impl<T: Num + Copy> Mul for M33<T>] *)
Definition m33_mul {T} `{Num T} (self : M33 T) (rhs : M33 T) : M33 T :=
  let m00 := self.[0].[0] * rhs.[0].[0] + self.[0].[1] * rhs.[1].[0] + self.[0].[2] * rhs.[2].[0] in
  let m01 := self.[0].[0] * rhs.[0].[1] + self.[0].[1] * rhs.[1].[1] + self.[0].[2] * rhs.[2].[1] in
  let m02 := self.[0].[0] * rhs.[0].[2] + self.[0].[1] * rhs.[1].[2] + self.[0].[2] * rhs.[2].[2] in
  let m10 := self.[1].[0] * rhs.[0].[0] + self.[1].[1] * rhs.[1].[0] + self.[1].[2] * rhs.[2].[0] in
  let m11 := self.[1].[0] * rhs.[0].[1] + self.[1].[1] * rhs.[1].[1] + self.[1].[2] * rhs.[2].[1] in
  let m12 := self.[1].[0] * rhs.[0].[2] + self.[1].[1] * rhs.[1].[2] + self.[1].[2] * rhs.[2].[2] in
  let m20 := self.[2].[0] * rhs.[0].[0] + self.[2].[1] * rhs.[1].[0] + self.[2].[2] * rhs.[2].[0] in
  let m21 := self.[2].[0] * rhs.[0].[1] + self.[2].[1] * rhs.[1].[1] + self.[2].[2] * rhs.[2].[1] in
  let m22 := self.[2].[0] * rhs.[0].[2] + self.[2].[1] * rhs.[1].[2] + self.[2].[2] * rhs.[2].[2] in
  [|[|m00; m01; m02|]; [|m10; m11; m12|]; [|m20; m21; m22|]|].

(** matrix3x3.rs:401-420, [impl<T: Num + Copy> Mul<V3<T>> for M33<T>] *)
Definition m33_mul_v {T} `{Num T} (self : M33 T) (rhs : V3 T) : V3 T :=
  let a_00 := self.[0].[0] in
  let a_01 := self.[0].[1] in
  let a_02 := self.[0].[2] in
  let a_10 := self.[1].[0] in
  let a_11 := self.[1].[1] in
  let a_12 := self.[1].[2] in
  let a_20 := self.[2].[0] in
  let a_21 := self.[2].[1] in
  let a_22 := self.[2].[2] in
  let v0 := rhs.[0] in
  let v1 := rhs.[1] in
  let v2 := rhs.[2] in
  [|
  a_00 * v0 + a_01 * v1 + a_02 * v2;
  a_10 * v0 + a_11 * v1 + a_12 * v2;
  a_20 * v0 + a_21 * v1 + a_22 * v2|].

(** matrix3x3.rs:465-477, [impl Mul<M33<f32>> for f32] (f32 in the source; the f64 impl, lines 481-497, has the same body) *)
Definition m33_lscale {T} `{Num T} (self : T) (rhs : M33 T) : M33 T :=
  let a_00 := self * rhs.[0].[0] in
  let a_01 := self * rhs.[0].[1] in
  let a_02 := self * rhs.[0].[2] in
  let a_10 := self * rhs.[1].[0] in
  let a_11 := self * rhs.[1].[1] in
  let a_12 := self * rhs.[1].[2] in
  let a_20 := self * rhs.[2].[0] in
  let a_21 := self * rhs.[2].[1] in
  let a_22 := self * rhs.[2].[2] in
  [|[|a_00; a_01; a_02|]; [|a_10; a_11; a_12|]; [|a_20; a_21; a_22|]|].

(** matrix3x3.rs:74-80, [impl<T: Float + core::iter::Sum> LinearAlgebra<T> for M33<T>] *)
Definition m33_transpose {T}  (self : M33 T) : M33 T :=
  [|
  [|self.[0].[0]; self.[1].[0]; self.[2].[0]|];
  [|self.[0].[1]; self.[1].[1]; self.[2].[1]|];
  [|self.[0].[2]; self.[1].[2]; self.[2].[2]|]|].

(** matrix3x3.rs:83-85, [impl<T: Float + core::iter::Sum> LinearAlgebra<T> for M33<T>] *)
Definition m33_trace {T} `{Num T} (self : M33 T) : T :=
  self.[0].[0] + self.[1].[1] + self.[2].[2].

(** matrix3x3.rs:87-99, [impl<T: Float + core::iter::Sum> LinearAlgebra<T> for M33<T>] *)
Definition m33_norm2 {T} `{Num T} `{Float T} (self : M33 T) : T :=
  fsqrt (
  self.[0].[0] * self.[0].[0]
  + self.[1].[0] * self.[1].[0]
  + self.[2].[0] * self.[2].[0]
  + self.[0].[1] * self.[0].[1]
  + self.[1].[1] * self.[1].[1]
  + self.[2].[1] * self.[2].[1]
  + self.[0].[2] * self.[0].[2]
  + self.[1].[2] * self.[1].[2]
  + self.[2].[2] * self.[2].[2]).

(** matrix3x3.rs:103-107, [impl<T: Float + core::iter::Sum> LinearAlgebra<T> for M33<T>] *)
Definition m33_det {T} `{Num T} (self : M33 T) : T :=
  self.[0].[0] * (self.[1].[1] * self.[2].[2] - self.[2].[1] * self.[1].[2])
  - self.[0].[1] * (self.[1].[0] * self.[2].[2] - self.[1].[2] * self.[2].[0])
  + self.[0].[2] * (self.[1].[0] * self.[2].[1] - self.[1].[1] * self.[2].[0]).

(** matrix3x3.rs:359-361, [+=] : [*self = *self + other] *)
Definition m33_add_assign {T} `{Num T} (self other : M33 T) : M33 T :=
  m33_add self other.

(** matrix3x3.rs:391-393, [-=] : [*self = *self - other] *)
Definition m33_sub_assign {T} `{Num T} (self other : M33 T) : M33 T :=
  m33_sub self other.

(** matrix3x3.rs:554-556, [is_zero] (derived [PartialEq]) *)
Definition m33_is_zero {T} `{Num T} (self : M33 T) : bool :=
  aeqb (aeqb eqb) self m33_zeros.

(** matrix3x3.rs:304-315, [get_rows] *)
Definition m33_get_rows {T} `{Num T} (self : M33 T) : outcome (arr (V3 T) 3) :=
  ' (r0, r1, r2) <- for_ 0 3 (v3_zeros, v3_zeros, v3_zeros) (fun j st =>
    let ' (r0, r1, r2) := st in
    x <- mget self 0 j ;; r0 <- aset r0 j x ;;
    x <- mget self 1 j ;; r1 <- aset r1 j x ;;
    x <- mget self 2 j ;; r2 <- aset r2 j x ;;
    Ok (r0, r1, r2)) ;;
  Ok [| r0; r1; r2 |].

(** matrix3x3.rs:318-329, [get_cols] *)
Definition m33_get_cols {T} `{Num T} (self : M33 T) : outcome (arr (V3 T) 3) :=
  ' (c0, c1, c2) <- for_ 0 3 (v3_zeros, v3_zeros, v3_zeros) (fun i st =>
    let ' (c0, c1, c2) := st in
    x <- mget self i 0 ;; c0 <- aset c0 i x ;;
    x <- mget self i 1 ;; c1 <- aset c1 i x ;;
    x <- mget self i 2 ;; c2 <- aset c2 i x ;;
    Ok (c0, c1, c2)) ;;
  Ok [| c0; c1; c2 |].

(** matrix3x3.rs:234-243, [new_from_vecs] *)
Definition m33_new_from_vecs {T} `{Num T} (cols : arr (V3 T) 3) : outcome (M33 T) :=
  for_ 0 3 m33_zeros (fun i result =>
    x <- aget cols.[0] i ;; result <- mset result i 0 x ;;
    x <- aget cols.[1] i ;; result <- mset result i 1 x ;;
    x <- aget cols.[2] i ;; result <- mset result i 2 x ;;
    Ok result).
