(** * Mat5: M55 (matrix5x5.rs)

    Arithmetic of the 5x5 matrices.
    Straight-line bodies transcribed from the Rust text keeping every operation
    and its association; simplifications: newtypes are erased, references and
    [Copy] are ignored. *)

From Coq Require Import List.
From Verif Require Import Base Scalar Vec.
Open Scope sc_scope.


(** matrix5x5.rs:846-848, [impl<T: Num + Copy> Zero for M55<T>] (also [zeros()]) *)
Definition m55_zeros {T} `{Num T} : M55 T :=
  amake 5 (amake 5 zero).

(** matrix5x5.rs:857-867, [impl<T: Num + Copy> One for M55<T>] (also [identity()]) *)
Definition m55_identity {T} `{Num T} : M55 T :=
  let one := one in
  let zero := zero in
  [|
  [|one; zero; zero; zero; zero|];
  [|zero; one; zero; zero; zero|];
  [|zero; zero; one; zero; zero|];
  [|zero; zero; zero; one; zero|];
  [|zero; zero; zero; zero; one|]|].

(** matrix5x5.rs:378-468, [impl<T: Num + Copy> Add for M55<T>] *)
Definition m55_add {T} `{Num T} (self : M55 T) (rhs : M55 T) : M55 T :=
  let a_00 := self.[0].[0] in
  let a_01 := self.[0].[1] in
  let a_02 := self.[0].[2] in
  let a_03 := self.[0].[3] in
  let a_04 := self.[0].[4] in
  let a_10 := self.[1].[0] in
  let a_11 := self.[1].[1] in
  let a_12 := self.[1].[2] in
  let a_13 := self.[1].[3] in
  let a_14 := self.[1].[4] in
  let a_20 := self.[2].[0] in
  let a_21 := self.[2].[1] in
  let a_22 := self.[2].[2] in
  let a_23 := self.[2].[3] in
  let a_24 := self.[2].[4] in
  let a_30 := self.[3].[0] in
  let a_31 := self.[3].[1] in
  let a_32 := self.[3].[2] in
  let a_33 := self.[3].[3] in
  let a_34 := self.[3].[4] in
  let a_40 := self.[4].[0] in
  let a_41 := self.[4].[1] in
  let a_42 := self.[4].[2] in
  let a_43 := self.[4].[3] in
  let a_44 := self.[4].[4] in
  let b_00 := rhs.[0].[0] in
  let b_01 := rhs.[0].[1] in
  let b_02 := rhs.[0].[2] in
  let b_03 := rhs.[0].[3] in
  let b_04 := rhs.[0].[4] in
  let b_10 := rhs.[1].[0] in
  let b_11 := rhs.[1].[1] in
  let b_12 := rhs.[1].[2] in
  let b_13 := rhs.[1].[3] in
  let b_14 := rhs.[1].[4] in
  let b_20 := rhs.[2].[0] in
  let b_21 := rhs.[2].[1] in
  let b_22 := rhs.[2].[2] in
  let b_23 := rhs.[2].[3] in
  let b_24 := rhs.[2].[4] in
  let b_30 := rhs.[3].[0] in
  let b_31 := rhs.[3].[1] in
  let b_32 := rhs.[3].[2] in
  let b_33 := rhs.[3].[3] in
  let b_34 := rhs.[3].[4] in
  let b_40 := rhs.[4].[0] in
  let b_41 := rhs.[4].[1] in
  let b_42 := rhs.[4].[2] in
  let b_43 := rhs.[4].[3] in
  let b_44 := rhs.[4].[4] in
  [|
  [|
  a_00 + b_00;
  a_01 + b_01;
  a_02 + b_02;
  a_03 + b_03;
  a_04 + b_04|];
  [|
  a_10 + b_10;
  a_11 + b_11;
  a_12 + b_12;
  a_13 + b_13;
  a_14 + b_14|];
  [|
  a_20 + b_20;
  a_21 + b_21;
  a_22 + b_22;
  a_23 + b_23;
  a_24 + b_24|];
  [|
  a_30 + b_30;
  a_31 + b_31;
  a_32 + b_32;
  a_33 + b_33;
  a_34 + b_34|];
  [|
  a_40 + b_40;
  a_41 + b_41;
  a_42 + b_42;
  a_43 + b_43;
  a_44 + b_44|]|].

(** matrix5x5.rs:483-573, [impl<T: Num + Copy> Sub for M55<T>] *)
Definition m55_sub {T} `{Num T} (self : M55 T) (rhs : M55 T) : M55 T :=
  let a_00 := self.[0].[0] in
  let a_01 := self.[0].[1] in
  let a_02 := self.[0].[2] in
  let a_03 := self.[0].[3] in
  let a_04 := self.[0].[4] in
  let a_10 := self.[1].[0] in
  let a_11 := self.[1].[1] in
  let a_12 := self.[1].[2] in
  let a_13 := self.[1].[3] in
  let a_14 := self.[1].[4] in
  let a_20 := self.[2].[0] in
  let a_21 := self.[2].[1] in
  let a_22 := self.[2].[2] in
  let a_23 := self.[2].[3] in
  let a_24 := self.[2].[4] in
  let a_30 := self.[3].[0] in
  let a_31 := self.[3].[1] in
  let a_32 := self.[3].[2] in
  let a_33 := self.[3].[3] in
  let a_34 := self.[3].[4] in
  let a_40 := self.[4].[0] in
  let a_41 := self.[4].[1] in
  let a_42 := self.[4].[2] in
  let a_43 := self.[4].[3] in
  let a_44 := self.[4].[4] in
  let b_00 := rhs.[0].[0] in
  let b_01 := rhs.[0].[1] in
  let b_02 := rhs.[0].[2] in
  let b_03 := rhs.[0].[3] in
  let b_04 := rhs.[0].[4] in
  let b_10 := rhs.[1].[0] in
  let b_11 := rhs.[1].[1] in
  let b_12 := rhs.[1].[2] in
  let b_13 := rhs.[1].[3] in
  let b_14 := rhs.[1].[4] in
  let b_20 := rhs.[2].[0] in
  let b_21 := rhs.[2].[1] in
  let b_22 := rhs.[2].[2] in
  let b_23 := rhs.[2].[3] in
  let b_24 := rhs.[2].[4] in
  let b_30 := rhs.[3].[0] in
  let b_31 := rhs.[3].[1] in
  let b_32 := rhs.[3].[2] in
  let b_33 := rhs.[3].[3] in
  let b_34 := rhs.[3].[4] in
  let b_40 := rhs.[4].[0] in
  let b_41 := rhs.[4].[1] in
  let b_42 := rhs.[4].[2] in
  let b_43 := rhs.[4].[3] in
  let b_44 := rhs.[4].[4] in
  [|
  [|
  a_00 - b_00;
  a_01 - b_01;
  a_02 - b_02;
  a_03 - b_03;
  a_04 - b_04|];
  [|
  a_10 - b_10;
  a_11 - b_11;
  a_12 - b_12;
  a_13 - b_13;
  a_14 - b_14|];
  [|
  a_20 - b_20;
  a_21 - b_21;
  a_22 - b_22;
  a_23 - b_23;
  a_24 - b_24|];
  [|
  a_30 - b_30;
  a_31 - b_31;
  a_32 - b_32;
  a_33 - b_33;
  a_34 - b_34|];
  [|
  a_40 - b_40;
  a_41 - b_41;
  a_42 - b_42;
  a_43 - b_43;
  a_44 - b_44|]|].

(** matrix5x5.rs:809-843, [impl<T: Num + Copy + Signed> Neg for M55<T>] *)
Definition m55_neg {T} `{Signed T} (self : M55 T) : M55 T :=
  let a_00 := -self.[0].[0] in
  let a_01 := -self.[0].[1] in
  let a_02 := -self.[0].[2] in
  let a_03 := -self.[0].[3] in
  let a_04 := -self.[0].[4] in
  let a_10 := -self.[1].[0] in
  let a_11 := -self.[1].[1] in
  let a_12 := -self.[1].[2] in
  let a_13 := -self.[1].[3] in
  let a_14 := -self.[1].[4] in
  let a_20 := -self.[2].[0] in
  let a_21 := -self.[2].[1] in
  let a_22 := -self.[2].[2] in
  let a_23 := -self.[2].[3] in
  let a_24 := -self.[2].[4] in
  let a_30 := -self.[3].[0] in
  let a_31 := -self.[3].[1] in
  let a_32 := -self.[3].[2] in
  let a_33 := -self.[3].[3] in
  let a_34 := -self.[3].[4] in
  let a_40 := -self.[4].[0] in
  let a_41 := -self.[4].[1] in
  let a_42 := -self.[4].[2] in
  let a_43 := -self.[4].[3] in
  let a_44 := -self.[4].[4] in
  [|
  [|a_00; a_01; a_02; a_03; a_04|];
  [|a_10; a_11; a_12; a_13; a_14|];
  [|a_20; a_21; a_22; a_23; a_24|];
  [|a_30; a_31; a_32; a_33; a_34|];
  [|a_40; a_41; a_42; a_43; a_44|]|].

(** matrix5x5.rs:587-621, [impl<T: Num + Copy> Mul<T> for M55<T>] *)
Definition m55_scale {T} `{Num T} (self : M55 T) (rhs : T) : M55 T :=
  let a_00 := self.[0].[0] * rhs in
  let a_01 := self.[0].[1] * rhs in
  let a_02 := self.[0].[2] * rhs in
  let a_03 := self.[0].[3] * rhs in
  let a_04 := self.[0].[4] * rhs in
  let a_10 := self.[1].[0] * rhs in
  let a_11 := self.[1].[1] * rhs in
  let a_12 := self.[1].[2] * rhs in
  let a_13 := self.[1].[3] * rhs in
  let a_14 := self.[1].[4] * rhs in
  let a_20 := self.[2].[0] * rhs in
  let a_21 := self.[2].[1] * rhs in
  let a_22 := self.[2].[2] * rhs in
  let a_23 := self.[2].[3] * rhs in
  let a_24 := self.[2].[4] * rhs in
  let a_30 := self.[3].[0] * rhs in
  let a_31 := self.[3].[1] * rhs in
  let a_32 := self.[3].[2] * rhs in
  let a_33 := self.[3].[3] * rhs in
  let a_34 := self.[3].[4] * rhs in
  let a_40 := self.[4].[0] * rhs in
  let a_41 := self.[4].[1] * rhs in
  let a_42 := self.[4].[2] * rhs in
  let a_43 := self.[4].[3] * rhs in
  let a_44 := self.[4].[4] * rhs in
  [|
  [|a_00; a_01; a_02; a_03; a_04|];
  [|a_10; a_11; a_12; a_13; a_14|];
  [|a_20; a_21; a_22; a_23; a_24|];
  [|a_30; a_31; a_32; a_33; a_34|];
  [|a_40; a_41; a_42; a_43; a_44|]|].

(** matrix5x5.rs:628-662, [impl<T: Num + Copy> Div<T> for M55<T>] *)
Definition m55_div {T} `{Num T} (self : M55 T) (rhs : T) : M55 T :=
  let a_00 := self.[0].[0] / rhs in
  let a_01 := self.[0].[1] / rhs in
  let a_02 := self.[0].[2] / rhs in
  let a_03 := self.[0].[3] / rhs in
  let a_04 := self.[0].[4] / rhs in
  let a_10 := self.[1].[0] / rhs in
  let a_11 := self.[1].[1] / rhs in
  let a_12 := self.[1].[2] / rhs in
  let a_13 := self.[1].[3] / rhs in
  let a_14 := self.[1].[4] / rhs in
  let a_20 := self.[2].[0] / rhs in
  let a_21 := self.[2].[1] / rhs in
  let a_22 := self.[2].[2] / rhs in
  let a_23 := self.[2].[3] / rhs in
  let a_24 := self.[2].[4] / rhs in
  let a_30 := self.[3].[0] / rhs in
  let a_31 := self.[3].[1] / rhs in
  let a_32 := self.[3].[2] / rhs in
  let a_33 := self.[3].[3] / rhs in
  let a_34 := self.[3].[4] / rhs in
  let a_40 := self.[4].[0] / rhs in
  let a_41 := self.[4].[1] / rhs in
  let a_42 := self.[4].[2] / rhs in
  let a_43 := self.[4].[3] / rhs in
  let a_44 := self.[4].[4] / rhs in
  [|
  [|a_00; a_01; a_02; a_03; a_04|];
  [|a_10; a_11; a_12; a_13; a_14|];
  [|a_20; a_21; a_22; a_23; a_24|];
  [|a_30; a_31; a_32; a_33; a_34|];
  [|a_40; a_41; a_42; a_43; a_44|]|].

(** matrix5x5.rs:712-802, [impl<T: Num + Copy> Mul for M55<T>] *)
Definition m55_mul {T} `{Num T} (self : M55 T) (rhs : M55 T) : M55 T :=
  let a_00 := self.[0].[0] in
  let a_01 := self.[0].[1] in
  let a_02 := self.[0].[2] in
  let a_03 := self.[0].[3] in
  let a_04 := self.[0].[4] in
  let a_10 := self.[1].[0] in
  let a_11 := self.[1].[1] in
  let a_12 := self.[1].[2] in
  let a_13 := self.[1].[3] in
  let a_14 := self.[1].[4] in
  let a_20 := self.[2].[0] in
  let a_21 := self.[2].[1] in
  let a_22 := self.[2].[2] in
  let a_23 := self.[2].[3] in
  let a_24 := self.[2].[4] in
  let a_30 := self.[3].[0] in
  let a_31 := self.[3].[1] in
  let a_32 := self.[3].[2] in
  let a_33 := self.[3].[3] in
  let a_34 := self.[3].[4] in
  let a_40 := self.[4].[0] in
  let a_41 := self.[4].[1] in
  let a_42 := self.[4].[2] in
  let a_43 := self.[4].[3] in
  let a_44 := self.[4].[4] in
  let b_00 := rhs.[0].[0] in
  let b_01 := rhs.[0].[1] in
  let b_02 := rhs.[0].[2] in
  let b_03 := rhs.[0].[3] in
  let b_04 := rhs.[0].[4] in
  let b_10 := rhs.[1].[0] in
  let b_11 := rhs.[1].[1] in
  let b_12 := rhs.[1].[2] in
  let b_13 := rhs.[1].[3] in
  let b_14 := rhs.[1].[4] in
  let b_20 := rhs.[2].[0] in
  let b_21 := rhs.[2].[1] in
  let b_22 := rhs.[2].[2] in
  let b_23 := rhs.[2].[3] in
  let b_24 := rhs.[2].[4] in
  let b_30 := rhs.[3].[0] in
  let b_31 := rhs.[3].[1] in
  let b_32 := rhs.[3].[2] in
  let b_33 := rhs.[3].[3] in
  let b_34 := rhs.[3].[4] in
  let b_40 := rhs.[4].[0] in
  let b_41 := rhs.[4].[1] in
  let b_42 := rhs.[4].[2] in
  let b_43 := rhs.[4].[3] in
  let b_44 := rhs.[4].[4] in
  [|
  [|
  a_00 * b_00 + a_01 * b_10 + a_02 * b_20 + a_03 * b_30 + a_04 * b_40;
  a_00 * b_01 + a_01 * b_11 + a_02 * b_21 + a_03 * b_31 + a_04 * b_41;
  a_00 * b_02 + a_01 * b_12 + a_02 * b_22 + a_03 * b_32 + a_04 * b_42;
  a_00 * b_03 + a_01 * b_13 + a_02 * b_23 + a_03 * b_33 + a_04 * b_43;
  a_00 * b_04 + a_01 * b_14 + a_02 * b_24 + a_03 * b_34 + a_04 * b_44|];
  [|
  a_10 * b_00 + a_11 * b_10 + a_12 * b_20 + a_13 * b_30 + a_14 * b_40;
  a_10 * b_01 + a_11 * b_11 + a_12 * b_21 + a_13 * b_31 + a_14 * b_41;
  a_10 * b_02 + a_11 * b_12 + a_12 * b_22 + a_13 * b_32 + a_14 * b_42;
  a_10 * b_03 + a_11 * b_13 + a_12 * b_23 + a_13 * b_33 + a_14 * b_43;
  a_10 * b_04 + a_11 * b_14 + a_12 * b_24 + a_13 * b_34 + a_14 * b_44|];
  [|
  a_20 * b_00 + a_21 * b_10 + a_22 * b_20 + a_23 * b_30 + a_24 * b_40;
  a_20 * b_01 + a_21 * b_11 + a_22 * b_21 + a_23 * b_31 + a_24 * b_41;
  a_20 * b_02 + a_21 * b_12 + a_22 * b_22 + a_23 * b_32 + a_24 * b_42;
  a_20 * b_03 + a_21 * b_13 + a_22 * b_23 + a_23 * b_33 + a_24 * b_43;
  a_20 * b_04 + a_21 * b_14 + a_22 * b_24 + a_23 * b_34 + a_24 * b_44|];
  [|
  a_30 * b_00 + a_31 * b_10 + a_32 * b_20 + a_33 * b_30 + a_34 * b_40;
  a_30 * b_01 + a_31 * b_11 + a_32 * b_21 + a_33 * b_31 + a_34 * b_41;
  a_30 * b_02 + a_31 * b_12 + a_32 * b_22 + a_33 * b_32 + a_34 * b_42;
  a_30 * b_03 + a_31 * b_13 + a_32 * b_23 + a_33 * b_33 + a_34 * b_43;
  a_30 * b_04 + a_31 * b_14 + a_32 * b_24 + a_33 * b_34 + a_34 * b_44|];
  [|
  a_40 * b_00 + a_41 * b_10 + a_42 * b_20 + a_43 * b_30 + a_44 * b_40;
  a_40 * b_01 + a_41 * b_11 + a_42 * b_21 + a_43 * b_31 + a_44 * b_41;
  a_40 * b_02 + a_41 * b_12 + a_42 * b_22 + a_43 * b_32 + a_44 * b_42;
  a_40 * b_03 + a_41 * b_13 + a_42 * b_23 + a_43 * b_33 + a_44 * b_43;
  a_40 * b_04 + a_41 * b_14 + a_42 * b_24 + a_43 * b_34 + a_44 * b_44|]|].

(** matrix5x5.rs:669-704, [impl<T: Num + Copy> Mul<V5<T>> for M55<T>] *)
Definition m55_mul_v {T} `{Num T} (self : M55 T) (rhs : V5 T) : V5 T :=
  let a_00 := self.[0].[0] in
  let a_01 := self.[0].[1] in
  let a_02 := self.[0].[2] in
  let a_03 := self.[0].[3] in
  let a_04 := self.[0].[4] in
  let a_10 := self.[1].[0] in
  let a_11 := self.[1].[1] in
  let a_12 := self.[1].[2] in
  let a_13 := self.[1].[3] in
  let a_14 := self.[1].[4] in
  let a_20 := self.[2].[0] in
  let a_21 := self.[2].[1] in
  let a_22 := self.[2].[2] in
  let a_23 := self.[2].[3] in
  let a_24 := self.[2].[4] in
  let a_30 := self.[3].[0] in
  let a_31 := self.[3].[1] in
  let a_32 := self.[3].[2] in
  let a_33 := self.[3].[3] in
  let a_34 := self.[3].[4] in
  let a_40 := self.[4].[0] in
  let a_41 := self.[4].[1] in
  let a_42 := self.[4].[2] in
  let a_43 := self.[4].[3] in
  let a_44 := self.[4].[4] in
  let v0 := a_00 * rhs.[0] + a_01 * rhs.[1] + a_02 * rhs.[2] + a_03 * rhs.[3] + a_04 * rhs.[4] in
  let v1 := a_10 * rhs.[0] + a_11 * rhs.[1] + a_12 * rhs.[2] + a_13 * rhs.[3] + a_14 * rhs.[4] in
  let v2 := a_20 * rhs.[0] + a_21 * rhs.[1] + a_22 * rhs.[2] + a_23 * rhs.[3] + a_24 * rhs.[4] in
  let v3 := a_30 * rhs.[0] + a_31 * rhs.[1] + a_32 * rhs.[2] + a_33 * rhs.[3] + a_34 * rhs.[4] in
  let v4 := a_40 * rhs.[0] + a_41 * rhs.[1] + a_42 * rhs.[2] + a_43 * rhs.[3] + a_44 * rhs.[4] in
  [|v0; v1; v2; v3; v4|].

(** matrix5x5.rs:70-104, [impl<T: Float + core::iter::Sum> LinearAlgebra<T> for M55<T>] *)
Definition m55_transpose {T}  (self : M55 T) : M55 T :=
  let a_00 := self.[0].[0] in
  let a_01 := self.[0].[1] in
  let a_02 := self.[0].[2] in
  let a_03 := self.[0].[3] in
  let a_04 := self.[0].[4] in
  let a_10 := self.[1].[0] in
  let a_11 := self.[1].[1] in
  let a_12 := self.[1].[2] in
  let a_13 := self.[1].[3] in
  let a_14 := self.[1].[4] in
  let a_20 := self.[2].[0] in
  let a_21 := self.[2].[1] in
  let a_22 := self.[2].[2] in
  let a_23 := self.[2].[3] in
  let a_24 := self.[2].[4] in
  let a_30 := self.[3].[0] in
  let a_31 := self.[3].[1] in
  let a_32 := self.[3].[2] in
  let a_33 := self.[3].[3] in
  let a_34 := self.[3].[4] in
  let a_40 := self.[4].[0] in
  let a_41 := self.[4].[1] in
  let a_42 := self.[4].[2] in
  let a_43 := self.[4].[3] in
  let a_44 := self.[4].[4] in
  [|
  [|a_00; a_10; a_20; a_30; a_40|];
  [|a_01; a_11; a_21; a_31; a_41|];
  [|a_02; a_12; a_22; a_32; a_42|];
  [|a_03; a_13; a_23; a_33; a_43|];
  [|a_04; a_14; a_24; a_34; a_44|]|].

(** matrix5x5.rs:106-108, [impl<T: Float + core::iter::Sum> LinearAlgebra<T> for M55<T>] *)
Definition m55_trace {T} `{Num T} (self : M55 T) : T :=
  self.[0].[0] + self.[1].[1] + self.[2].[2] + self.[3].[3] + self.[4].[4].

(** matrix5x5.rs:110-118, [norm2]: [iter().flatten()] lists the cells row by row, [sum()]
    folds [+] from zero. *)
Definition m55_norm2 {T} `{Num T} `{Float T} (self : M55 T) : T :=
  fsqrt (fold_left add (map (fun element => element * element)
                            (concat (map alist (alist self)))) zero).

(** matrix5x5.rs:120-267, [impl<T: Float + core::iter::Sum> LinearAlgebra<T> for M55<T>] *)
Definition m55_det {T} `{Num T} (self : M55 T) : T :=
  let a_00 := self.[0].[0] in
  let a_01 := self.[0].[1] in
  let a_02 := self.[0].[2] in
  let a_03 := self.[0].[3] in
  let a_04 := self.[0].[4] in
  let a_10 := self.[1].[0] in
  let a_11 := self.[1].[1] in
  let a_12 := self.[1].[2] in
  let a_13 := self.[1].[3] in
  let a_14 := self.[1].[4] in
  let a_20 := self.[2].[0] in
  let a_21 := self.[2].[1] in
  let a_22 := self.[2].[2] in
  let a_23 := self.[2].[3] in
  let a_24 := self.[2].[4] in
  let a_30 := self.[3].[0] in
  let a_31 := self.[3].[1] in
  let a_32 := self.[3].[2] in
  let a_33 := self.[3].[3] in
  let a_34 := self.[3].[4] in
  let a_40 := self.[4].[0] in
  let a_41 := self.[4].[1] in
  let a_42 := self.[4].[2] in
  let a_43 := self.[4].[3] in
  let a_44 := self.[4].[4] in
  a_00 * a_11 * a_22 * a_33 * a_44
  - a_00 * a_11 * a_22 * a_34 * a_43
  - a_00 * a_11 * a_23 * a_32 * a_44
  + a_00 * a_11 * a_23 * a_34 * a_42
  + a_00 * a_11 * a_24 * a_32 * a_43
  - a_00 * a_11 * a_24 * a_33 * a_42
  - a_00 * a_12 * a_21 * a_33 * a_44
  + a_00 * a_12 * a_21 * a_34 * a_43
  + a_00 * a_12 * a_23 * a_31 * a_44
  - a_00 * a_12 * a_23 * a_34 * a_41
  - a_00 * a_12 * a_24 * a_31 * a_43
  + a_00 * a_12 * a_24 * a_33 * a_41
  + a_00 * a_13 * a_21 * a_32 * a_44
  - a_00 * a_13 * a_21 * a_34 * a_42
  - a_00 * a_13 * a_22 * a_31 * a_44
  + a_00 * a_13 * a_22 * a_34 * a_41
  + a_00 * a_13 * a_24 * a_31 * a_42
  - a_00 * a_13 * a_24 * a_32 * a_41
  - a_00 * a_14 * a_21 * a_32 * a_43
  + a_00 * a_14 * a_21 * a_33 * a_42
  + a_00 * a_14 * a_22 * a_31 * a_43
  - a_00 * a_14 * a_22 * a_33 * a_41
  - a_00 * a_14 * a_23 * a_31 * a_42
  + a_00 * a_14 * a_23 * a_32 * a_41
  - a_01 * a_10 * a_22 * a_33 * a_44
  + a_01 * a_10 * a_22 * a_34 * a_43
  + a_01 * a_10 * a_23 * a_32 * a_44
  - a_01 * a_10 * a_23 * a_34 * a_42
  - a_01 * a_10 * a_24 * a_32 * a_43
  + a_01 * a_10 * a_24 * a_33 * a_42
  + a_01 * a_12 * a_20 * a_33 * a_44
  - a_01 * a_12 * a_20 * a_34 * a_43
  - a_01 * a_12 * a_23 * a_30 * a_44
  + a_01 * a_12 * a_23 * a_34 * a_40
  + a_01 * a_12 * a_24 * a_30 * a_43
  - a_01 * a_12 * a_24 * a_33 * a_40
  - a_01 * a_13 * a_20 * a_32 * a_44
  + a_01 * a_13 * a_20 * a_34 * a_42
  + a_01 * a_13 * a_22 * a_30 * a_44
  - a_01 * a_13 * a_22 * a_34 * a_40
  - a_01 * a_13 * a_24 * a_30 * a_42
  + a_01 * a_13 * a_24 * a_32 * a_40
  + a_01 * a_14 * a_20 * a_32 * a_43
  - a_01 * a_14 * a_20 * a_33 * a_42
  - a_01 * a_14 * a_22 * a_30 * a_43
  + a_01 * a_14 * a_22 * a_33 * a_40
  + a_01 * a_14 * a_23 * a_30 * a_42
  - a_01 * a_14 * a_23 * a_32 * a_40
  + a_02 * a_10 * a_21 * a_33 * a_44
  - a_02 * a_10 * a_21 * a_34 * a_43
  - a_02 * a_10 * a_23 * a_31 * a_44
  + a_02 * a_10 * a_23 * a_34 * a_41
  + a_02 * a_10 * a_24 * a_31 * a_43
  - a_02 * a_10 * a_24 * a_33 * a_41
  - a_02 * a_11 * a_20 * a_33 * a_44
  + a_02 * a_11 * a_20 * a_34 * a_43
  + a_02 * a_11 * a_23 * a_30 * a_44
  - a_02 * a_11 * a_23 * a_34 * a_40
  - a_02 * a_11 * a_24 * a_30 * a_43
  + a_02 * a_11 * a_24 * a_33 * a_40
  + a_02 * a_13 * a_20 * a_31 * a_44
  - a_02 * a_13 * a_20 * a_34 * a_41
  - a_02 * a_13 * a_21 * a_30 * a_44
  + a_02 * a_13 * a_21 * a_34 * a_40
  + a_02 * a_13 * a_24 * a_30 * a_41
  - a_02 * a_13 * a_24 * a_31 * a_40
  - a_02 * a_14 * a_20 * a_31 * a_43
  + a_02 * a_14 * a_20 * a_33 * a_41
  + a_02 * a_14 * a_21 * a_30 * a_43
  - a_02 * a_14 * a_21 * a_33 * a_40
  - a_02 * a_14 * a_23 * a_30 * a_41
  + a_02 * a_14 * a_23 * a_31 * a_40
  - a_03 * a_10 * a_21 * a_32 * a_44
  + a_03 * a_10 * a_21 * a_34 * a_42
  + a_03 * a_10 * a_22 * a_31 * a_44
  - a_03 * a_10 * a_22 * a_34 * a_41
  - a_03 * a_10 * a_24 * a_31 * a_42
  + a_03 * a_10 * a_24 * a_32 * a_41
  + a_03 * a_11 * a_20 * a_32 * a_44
  - a_03 * a_11 * a_20 * a_34 * a_42
  - a_03 * a_11 * a_22 * a_30 * a_44
  + a_03 * a_11 * a_22 * a_34 * a_40
  + a_03 * a_11 * a_24 * a_30 * a_42
  - a_03 * a_11 * a_24 * a_32 * a_40
  - a_03 * a_12 * a_20 * a_31 * a_44
  + a_03 * a_12 * a_20 * a_34 * a_41
  + a_03 * a_12 * a_21 * a_30 * a_44
  - a_03 * a_12 * a_21 * a_34 * a_40
  - a_03 * a_12 * a_24 * a_30 * a_41
  + a_03 * a_12 * a_24 * a_31 * a_40
  + a_03 * a_14 * a_20 * a_31 * a_42
  - a_03 * a_14 * a_20 * a_32 * a_41
  - a_03 * a_14 * a_21 * a_30 * a_42
  + a_03 * a_14 * a_21 * a_32 * a_40
  + a_03 * a_14 * a_22 * a_30 * a_41
  - a_03 * a_14 * a_22 * a_31 * a_40
  + a_04 * a_10 * a_21 * a_32 * a_43
  - a_04 * a_10 * a_21 * a_33 * a_42
  - a_04 * a_10 * a_22 * a_31 * a_43
  + a_04 * a_10 * a_22 * a_33 * a_41
  + a_04 * a_10 * a_23 * a_31 * a_42
  - a_04 * a_10 * a_23 * a_32 * a_41
  - a_04 * a_11 * a_20 * a_32 * a_43
  + a_04 * a_11 * a_20 * a_33 * a_42
  + a_04 * a_11 * a_22 * a_30 * a_43
  - a_04 * a_11 * a_22 * a_33 * a_40
  - a_04 * a_11 * a_23 * a_30 * a_42
  + a_04 * a_11 * a_23 * a_32 * a_40
  + a_04 * a_12 * a_20 * a_31 * a_43
  - a_04 * a_12 * a_20 * a_33 * a_41
  - a_04 * a_12 * a_21 * a_30 * a_43
  + a_04 * a_12 * a_21 * a_33 * a_40
  + a_04 * a_12 * a_23 * a_30 * a_41
  - a_04 * a_12 * a_23 * a_31 * a_40
  - a_04 * a_13 * a_20 * a_31 * a_42
  + a_04 * a_13 * a_20 * a_32 * a_41
  + a_04 * a_13 * a_21 * a_30 * a_42
  - a_04 * a_13 * a_21 * a_32 * a_40
  - a_04 * a_13 * a_22 * a_30 * a_41
  + a_04 * a_13 * a_22 * a_31 * a_40.

(** matrix5x5.rs:474-476, [+=] : [*self = *self + other] *)
Definition m55_add_assign {T} `{Num T} (self other : M55 T) : M55 T :=
  m55_add self other.

(** matrix5x5.rs:578-580, [-=] : [*self = *self - other] *)
Definition m55_sub_assign {T} `{Num T} (self other : M55 T) : M55 T :=
  m55_sub self other.

(** matrix5x5.rs:850-852, [is_zero] (derived [PartialEq]) *)
Definition m55_is_zero {T} `{Num T} (self : M55 T) : bool :=
  aeqb (aeqb eqb) self m55_zeros.

(** matrix5x5.rs:941-956, [get_rows] *)
Definition m55_get_rows {T} `{Num T} (self : M55 T) : outcome (arr (V5 T) 5) :=
  ' (r0, r1, r2, r3, r4) <- for_ 0 5 (v5_zeros, v5_zeros, v5_zeros, v5_zeros, v5_zeros) (fun j st =>
    let ' (r0, r1, r2, r3, r4) := st in
    x <- mget self 0 j ;; r0 <- aset r0 j x ;;
    x <- mget self 1 j ;; r1 <- aset r1 j x ;;
    x <- mget self 2 j ;; r2 <- aset r2 j x ;;
    x <- mget self 3 j ;; r3 <- aset r3 j x ;;
    x <- mget self 4 j ;; r4 <- aset r4 j x ;;
    Ok (r0, r1, r2, r3, r4)) ;;
  Ok [| r0; r1; r2; r3; r4 |].

(** matrix5x5.rs:958-973, [get_cols] *)
Definition m55_get_cols {T} `{Num T} (self : M55 T) : outcome (arr (V5 T) 5) :=
  ' (c0, c1, c2, c3, c4) <- for_ 0 5 (v5_zeros, v5_zeros, v5_zeros, v5_zeros, v5_zeros) (fun i st =>
    let ' (c0, c1, c2, c3, c4) := st in
    x <- mget self i 0 ;; c0 <- aset c0 i x ;;
    x <- mget self i 1 ;; c1 <- aset c1 i x ;;
    x <- mget self i 2 ;; c2 <- aset c2 i x ;;
    x <- mget self i 3 ;; c3 <- aset c3 i x ;;
    x <- mget self i 4 ;; c4 <- aset c4 i x ;;
    Ok (c0, c1, c2, c3, c4)) ;;
  Ok [| c0; c1; c2; c3; c4 |].

(** matrix5x5.rs:890-901, [new_from_vecs] *)
Definition m55_new_from_vecs {T} `{Num T} (cols : arr (V5 T) 5) : outcome (M55 T) :=
  for_ 0 5 m55_zeros (fun i result =>
    x <- aget cols.[0] i ;; result <- mset result i 0 x ;;
    x <- aget cols.[1] i ;; result <- mset result i 1 x ;;
    x <- aget cols.[2] i ;; result <- mset result i 2 x ;;
    x <- aget cols.[3] i ;; result <- mset result i 3 x ;;
    x <- aget cols.[4] i ;; result <- mset result i 4 x ;;
    Ok result).
