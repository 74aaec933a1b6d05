(** * Mat6: M66 (matrix6x6.rs)

    Arithmetic of the 6x6 matrices.
    Straight-line bodies transcribed from the Rust text keeping every operation
    and its association; simplifications: newtypes are erased, references and
    [Copy] are ignored. *)

From Coq Require Import List.
From Verif Require Import Base Scalar Vec.
Open Scope sc_scope.


(** matrix6x6.rs:1823-1825, [impl<T: Num + Copy> Zero for M66<T>] (also [zeros()]) *)
Definition m66_zeros {T} `{Num T} : M66 T :=
  amake 6 (amake 6 zero).

(** matrix6x6.rs:1835-1846, [impl<T: Num + Copy> One for M66<T>] (also [identity()]) *)
Definition m66_identity {T} `{Num T} : M66 T :=
  let one := one in
  let zero := zero in
  [|
  [|one; zero; zero; zero; zero; zero|];
  [|zero; one; zero; zero; zero; zero|];
  [|zero; zero; one; zero; zero; zero|];
  [|zero; zero; zero; one; zero; zero|];
  [|zero; zero; zero; zero; one; zero|];
  [|zero; zero; zero; zero; zero; one|]|].

(** matrix6x6.rs:1030-1155, [impl<T: Num + Copy> Add for M66<T>] *)
Definition m66_add {T} `{Num T} (self : M66 T) (rhs : M66 T) : M66 T :=
  let a_00 := self.[0].[0] in
  let a_01 := self.[0].[1] in
  let a_02 := self.[0].[2] in
  let a_03 := self.[0].[3] in
  let a_04 := self.[0].[4] in
  let a_05 := self.[0].[5] in
  let a_10 := self.[1].[0] in
  let a_11 := self.[1].[1] in
  let a_12 := self.[1].[2] in
  let a_13 := self.[1].[3] in
  let a_14 := self.[1].[4] in
  let a_15 := self.[1].[5] in
  let a_20 := self.[2].[0] in
  let a_21 := self.[2].[1] in
  let a_22 := self.[2].[2] in
  let a_23 := self.[2].[3] in
  let a_24 := self.[2].[4] in
  let a_25 := self.[2].[5] in
  let a_30 := self.[3].[0] in
  let a_31 := self.[3].[1] in
  let a_32 := self.[3].[2] in
  let a_33 := self.[3].[3] in
  let a_34 := self.[3].[4] in
  let a_35 := self.[3].[5] in
  let a_40 := self.[4].[0] in
  let a_41 := self.[4].[1] in
  let a_42 := self.[4].[2] in
  let a_43 := self.[4].[3] in
  let a_44 := self.[4].[4] in
  let a_45 := self.[4].[5] in
  let a_50 := self.[5].[0] in
  let a_51 := self.[5].[1] in
  let a_52 := self.[5].[2] in
  let a_53 := self.[5].[3] in
  let a_54 := self.[5].[4] in
  let a_55 := self.[5].[5] in
  let b_00 := rhs.[0].[0] in
  let b_01 := rhs.[0].[1] in
  let b_02 := rhs.[0].[2] in
  let b_03 := rhs.[0].[3] in
  let b_04 := rhs.[0].[4] in
  let b_05 := rhs.[0].[5] in
  let b_10 := rhs.[1].[0] in
  let b_11 := rhs.[1].[1] in
  let b_12 := rhs.[1].[2] in
  let b_13 := rhs.[1].[3] in
  let b_14 := rhs.[1].[4] in
  let b_15 := rhs.[1].[5] in
  let b_20 := rhs.[2].[0] in
  let b_21 := rhs.[2].[1] in
  let b_22 := rhs.[2].[2] in
  let b_23 := rhs.[2].[3] in
  let b_24 := rhs.[2].[4] in
  let b_25 := rhs.[2].[5] in
  let b_30 := rhs.[3].[0] in
  let b_31 := rhs.[3].[1] in
  let b_32 := rhs.[3].[2] in
  let b_33 := rhs.[3].[3] in
  let b_34 := rhs.[3].[4] in
  let b_35 := rhs.[3].[5] in
  let b_40 := rhs.[4].[0] in
  let b_41 := rhs.[4].[1] in
  let b_42 := rhs.[4].[2] in
  let b_43 := rhs.[4].[3] in
  let b_44 := rhs.[4].[4] in
  let b_45 := rhs.[4].[5] in
  let b_50 := rhs.[5].[0] in
  let b_51 := rhs.[5].[1] in
  let b_52 := rhs.[5].[2] in
  let b_53 := rhs.[5].[3] in
  let b_54 := rhs.[5].[4] in
  let b_55 := rhs.[5].[5] in
  [|
  [|
  a_00 + b_00;
  a_01 + b_01;
  a_02 + b_02;
  a_03 + b_03;
  a_04 + b_04;
  a_05 + b_05|];
  [|
  a_10 + b_10;
  a_11 + b_11;
  a_12 + b_12;
  a_13 + b_13;
  a_14 + b_14;
  a_15 + b_15|];
  [|
  a_20 + b_20;
  a_21 + b_21;
  a_22 + b_22;
  a_23 + b_23;
  a_24 + b_24;
  a_25 + b_25|];
  [|
  a_30 + b_30;
  a_31 + b_31;
  a_32 + b_32;
  a_33 + b_33;
  a_34 + b_34;
  a_35 + b_35|];
  [|
  a_40 + b_40;
  a_41 + b_41;
  a_42 + b_42;
  a_43 + b_43;
  a_44 + b_44;
  a_45 + b_45|];
  [|
  a_50 + b_50;
  a_51 + b_51;
  a_52 + b_52;
  a_53 + b_53;
  a_54 + b_54;
  a_55 + b_55|]|].

(** matrix6x6.rs:1169-1294, [impl<T: Num + Copy> Sub for M66<T>] *)
Definition m66_sub {T} `{Num T} (self : M66 T) (rhs : M66 T) : M66 T :=
  let a_00 := self.[0].[0] in
  let a_01 := self.[0].[1] in
  let a_02 := self.[0].[2] in
  let a_03 := self.[0].[3] in
  let a_04 := self.[0].[4] in
  let a_05 := self.[0].[5] in
  let a_10 := self.[1].[0] in
  let a_11 := self.[1].[1] in
  let a_12 := self.[1].[2] in
  let a_13 := self.[1].[3] in
  let a_14 := self.[1].[4] in
  let a_15 := self.[1].[5] in
  let a_20 := self.[2].[0] in
  let a_21 := self.[2].[1] in
  let a_22 := self.[2].[2] in
  let a_23 := self.[2].[3] in
  let a_24 := self.[2].[4] in
  let a_25 := self.[2].[5] in
  let a_30 := self.[3].[0] in
  let a_31 := self.[3].[1] in
  let a_32 := self.[3].[2] in
  let a_33 := self.[3].[3] in
  let a_34 := self.[3].[4] in
  let a_35 := self.[3].[5] in
  let a_40 := self.[4].[0] in
  let a_41 := self.[4].[1] in
  let a_42 := self.[4].[2] in
  let a_43 := self.[4].[3] in
  let a_44 := self.[4].[4] in
  let a_45 := self.[4].[5] in
  let a_50 := self.[5].[0] in
  let a_51 := self.[5].[1] in
  let a_52 := self.[5].[2] in
  let a_53 := self.[5].[3] in
  let a_54 := self.[5].[4] in
  let a_55 := self.[5].[5] in
  let b_00 := rhs.[0].[0] in
  let b_01 := rhs.[0].[1] in
  let b_02 := rhs.[0].[2] in
  let b_03 := rhs.[0].[3] in
  let b_04 := rhs.[0].[4] in
  let b_05 := rhs.[0].[5] in
  let b_10 := rhs.[1].[0] in
  let b_11 := rhs.[1].[1] in
  let b_12 := rhs.[1].[2] in
  let b_13 := rhs.[1].[3] in
  let b_14 := rhs.[1].[4] in
  let b_15 := rhs.[1].[5] in
  let b_20 := rhs.[2].[0] in
  let b_21 := rhs.[2].[1] in
  let b_22 := rhs.[2].[2] in
  let b_23 := rhs.[2].[3] in
  let b_24 := rhs.[2].[4] in
  let b_25 := rhs.[2].[5] in
  let b_30 := rhs.[3].[0] in
  let b_31 := rhs.[3].[1] in
  let b_32 := rhs.[3].[2] in
  let b_33 := rhs.[3].[3] in
  let b_34 := rhs.[3].[4] in
  let b_35 := rhs.[3].[5] in
  let b_40 := rhs.[4].[0] in
  let b_41 := rhs.[4].[1] in
  let b_42 := rhs.[4].[2] in
  let b_43 := rhs.[4].[3] in
  let b_44 := rhs.[4].[4] in
  let b_45 := rhs.[4].[5] in
  let b_50 := rhs.[5].[0] in
  let b_51 := rhs.[5].[1] in
  let b_52 := rhs.[5].[2] in
  let b_53 := rhs.[5].[3] in
  let b_54 := rhs.[5].[4] in
  let b_55 := rhs.[5].[5] in
  [|
  [|
  a_00 - b_00;
  a_01 - b_01;
  a_02 - b_02;
  a_03 - b_03;
  a_04 - b_04;
  a_05 - b_05|];
  [|
  a_10 - b_10;
  a_11 - b_11;
  a_12 - b_12;
  a_13 - b_13;
  a_14 - b_14;
  a_15 - b_15|];
  [|
  a_20 - b_20;
  a_21 - b_21;
  a_22 - b_22;
  a_23 - b_23;
  a_24 - b_24;
  a_25 - b_25|];
  [|
  a_30 - b_30;
  a_31 - b_31;
  a_32 - b_32;
  a_33 - b_33;
  a_34 - b_34;
  a_35 - b_35|];
  [|
  a_40 - b_40;
  a_41 - b_41;
  a_42 - b_42;
  a_43 - b_43;
  a_44 - b_44;
  a_45 - b_45|];
  [|
  a_50 - b_50;
  a_51 - b_51;
  a_52 - b_52;
  a_53 - b_53;
  a_54 - b_54;
  a_55 - b_55|]|].

(** matrix6x6.rs:1414-1460, [impl<T: Num + Copy + Signed> Neg for M66<T>] *)
Definition m66_neg {T} `{Signed T} (self : M66 T) : M66 T :=
  let a_00 := -self.[0].[0] in
  let a_01 := -self.[0].[1] in
  let a_02 := -self.[0].[2] in
  let a_03 := -self.[0].[3] in
  let a_04 := -self.[0].[4] in
  let a_05 := -self.[0].[5] in
  let a_10 := -self.[1].[0] in
  let a_11 := -self.[1].[1] in
  let a_12 := -self.[1].[2] in
  let a_13 := -self.[1].[3] in
  let a_14 := -self.[1].[4] in
  let a_15 := -self.[1].[5] in
  let a_20 := -self.[2].[0] in
  let a_21 := -self.[2].[1] in
  let a_22 := -self.[2].[2] in
  let a_23 := -self.[2].[3] in
  let a_24 := -self.[2].[4] in
  let a_25 := -self.[2].[5] in
  let a_30 := -self.[3].[0] in
  let a_31 := -self.[3].[1] in
  let a_32 := -self.[3].[2] in
  let a_33 := -self.[3].[3] in
  let a_34 := -self.[3].[4] in
  let a_35 := -self.[3].[5] in
  let a_40 := -self.[4].[0] in
  let a_41 := -self.[4].[1] in
  let a_42 := -self.[4].[2] in
  let a_43 := -self.[4].[3] in
  let a_44 := -self.[4].[4] in
  let a_45 := -self.[4].[5] in
  let a_50 := -self.[5].[0] in
  let a_51 := -self.[5].[1] in
  let a_52 := -self.[5].[2] in
  let a_53 := -self.[5].[3] in
  let a_54 := -self.[5].[4] in
  let a_55 := -self.[5].[5] in
  [|
  [|a_00; a_01; a_02; a_03; a_04; a_05|];
  [|a_10; a_11; a_12; a_13; a_14; a_15|];
  [|a_20; a_21; a_22; a_23; a_24; a_25|];
  [|a_30; a_31; a_32; a_33; a_34; a_35|];
  [|a_40; a_41; a_42; a_43; a_44; a_45|];
  [|a_50; a_51; a_52; a_53; a_54; a_55|]|].

(** matrix6x6.rs:1308-1354, [impl<T: Num + Copy> Mul<T> for M66<T>] *)
Definition m66_scale {T} `{Num T} (self : M66 T) (rhs : T) : M66 T :=
  let a_00 := self.[0].[0] * rhs in
  let a_01 := self.[0].[1] * rhs in
  let a_02 := self.[0].[2] * rhs in
  let a_03 := self.[0].[3] * rhs in
  let a_04 := self.[0].[4] * rhs in
  let a_05 := self.[0].[5] * rhs in
  let a_10 := self.[1].[0] * rhs in
  let a_11 := self.[1].[1] * rhs in
  let a_12 := self.[1].[2] * rhs in
  let a_13 := self.[1].[3] * rhs in
  let a_14 := self.[1].[4] * rhs in
  let a_15 := self.[1].[5] * rhs in
  let a_20 := self.[2].[0] * rhs in
  let a_21 := self.[2].[1] * rhs in
  let a_22 := self.[2].[2] * rhs in
  let a_23 := self.[2].[3] * rhs in
  let a_24 := self.[2].[4] * rhs in
  let a_25 := self.[2].[5] * rhs in
  let a_30 := self.[3].[0] * rhs in
  let a_31 := self.[3].[1] * rhs in
  let a_32 := self.[3].[2] * rhs in
  let a_33 := self.[3].[3] * rhs in
  let a_34 := self.[3].[4] * rhs in
  let a_35 := self.[3].[5] * rhs in
  let a_40 := self.[4].[0] * rhs in
  let a_41 := self.[4].[1] * rhs in
  let a_42 := self.[4].[2] * rhs in
  let a_43 := self.[4].[3] * rhs in
  let a_44 := self.[4].[4] * rhs in
  let a_45 := self.[4].[5] * rhs in
  let a_50 := self.[5].[0] * rhs in
  let a_51 := self.[5].[1] * rhs in
  let a_52 := self.[5].[2] * rhs in
  let a_53 := self.[5].[3] * rhs in
  let a_54 := self.[5].[4] * rhs in
  let a_55 := self.[5].[5] * rhs in
  [|
  [|a_00; a_01; a_02; a_03; a_04; a_05|];
  [|a_10; a_11; a_12; a_13; a_14; a_15|];
  [|a_20; a_21; a_22; a_23; a_24; a_25|];
  [|a_30; a_31; a_32; a_33; a_34; a_35|];
  [|a_40; a_41; a_42; a_43; a_44; a_45|];
  [|a_50; a_51; a_52; a_53; a_54; a_55|]|].

(** matrix6x6.rs:1361-1407, [impl<T: Num + Copy> Div<T> for M66<T>] *)
Definition m66_div {T} `{Num T} (self : M66 T) (rhs : T) : M66 T :=
  let a_00 := self.[0].[0] / rhs in
  let a_01 := self.[0].[1] / rhs in
  let a_02 := self.[0].[2] / rhs in
  let a_03 := self.[0].[3] / rhs in
  let a_04 := self.[0].[4] / rhs in
  let a_05 := self.[0].[5] / rhs in
  let a_10 := self.[1].[0] / rhs in
  let a_11 := self.[1].[1] / rhs in
  let a_12 := self.[1].[2] / rhs in
  let a_13 := self.[1].[3] / rhs in
  let a_14 := self.[1].[4] / rhs in
  let a_15 := self.[1].[5] / rhs in
  let a_20 := self.[2].[0] / rhs in
  let a_21 := self.[2].[1] / rhs in
  let a_22 := self.[2].[2] / rhs in
  let a_23 := self.[2].[3] / rhs in
  let a_24 := self.[2].[4] / rhs in
  let a_25 := self.[2].[5] / rhs in
  let a_30 := self.[3].[0] / rhs in
  let a_31 := self.[3].[1] / rhs in
  let a_32 := self.[3].[2] / rhs in
  let a_33 := self.[3].[3] / rhs in
  let a_34 := self.[3].[4] / rhs in
  let a_35 := self.[3].[5] / rhs in
  let a_40 := self.[4].[0] / rhs in
  let a_41 := self.[4].[1] / rhs in
  let a_42 := self.[4].[2] / rhs in
  let a_43 := self.[4].[3] / rhs in
  let a_44 := self.[4].[4] / rhs in
  let a_45 := self.[4].[5] / rhs in
  let a_50 := self.[5].[0] / rhs in
  let a_51 := self.[5].[1] / rhs in
  let a_52 := self.[5].[2] / rhs in
  let a_53 := self.[5].[3] / rhs in
  let a_54 := self.[5].[4] / rhs in
  let a_55 := self.[5].[5] / rhs in
  [|
  [|a_00; a_01; a_02; a_03; a_04; a_05|];
  [|a_10; a_11; a_12; a_13; a_14; a_15|];
  [|a_20; a_21; a_22; a_23; a_24; a_25|];
  [|a_30; a_31; a_32; a_33; a_34; a_35|];
  [|a_40; a_41; a_42; a_43; a_44; a_45|];
  [|a_50; a_51; a_52; a_53; a_54; a_55|]|].

(** matrix6x6.rs:1493-1618, [impl<T: Num + Copy> Mul for M66<T>] *)
Definition m66_mul {T} `{Num T} (self : M66 T) (rhs : M66 T) : M66 T :=
  let a_00 := self.[0].[0] in
  let a_01 := self.[0].[1] in
  let a_02 := self.[0].[2] in
  let a_03 := self.[0].[3] in
  let a_04 := self.[0].[4] in
  let a_05 := self.[0].[5] in
  let a_10 := self.[1].[0] in
  let a_11 := self.[1].[1] in
  let a_12 := self.[1].[2] in
  let a_13 := self.[1].[3] in
  let a_14 := self.[1].[4] in
  let a_15 := self.[1].[5] in
  let a_20 := self.[2].[0] in
  let a_21 := self.[2].[1] in
  let a_22 := self.[2].[2] in
  let a_23 := self.[2].[3] in
  let a_24 := self.[2].[4] in
  let a_25 := self.[2].[5] in
  let a_30 := self.[3].[0] in
  let a_31 := self.[3].[1] in
  let a_32 := self.[3].[2] in
  let a_33 := self.[3].[3] in
  let a_34 := self.[3].[4] in
  let a_35 := self.[3].[5] in
  let a_40 := self.[4].[0] in
  let a_41 := self.[4].[1] in
  let a_42 := self.[4].[2] in
  let a_43 := self.[4].[3] in
  let a_44 := self.[4].[4] in
  let a_45 := self.[4].[5] in
  let a_50 := self.[5].[0] in
  let a_51 := self.[5].[1] in
  let a_52 := self.[5].[2] in
  let a_53 := self.[5].[3] in
  let a_54 := self.[5].[4] in
  let a_55 := self.[5].[5] in
  let b_00 := rhs.[0].[0] in
  let b_01 := rhs.[0].[1] in
  let b_02 := rhs.[0].[2] in
  let b_03 := rhs.[0].[3] in
  let b_04 := rhs.[0].[4] in
  let b_05 := rhs.[0].[5] in
  let b_10 := rhs.[1].[0] in
  let b_11 := rhs.[1].[1] in
  let b_12 := rhs.[1].[2] in
  let b_13 := rhs.[1].[3] in
  let b_14 := rhs.[1].[4] in
  let b_15 := rhs.[1].[5] in
  let b_20 := rhs.[2].[0] in
  let b_21 := rhs.[2].[1] in
  let b_22 := rhs.[2].[2] in
  let b_23 := rhs.[2].[3] in
  let b_24 := rhs.[2].[4] in
  let b_25 := rhs.[2].[5] in
  let b_30 := rhs.[3].[0] in
  let b_31 := rhs.[3].[1] in
  let b_32 := rhs.[3].[2] in
  let b_33 := rhs.[3].[3] in
  let b_34 := rhs.[3].[4] in
  let b_35 := rhs.[3].[5] in
  let b_40 := rhs.[4].[0] in
  let b_41 := rhs.[4].[1] in
  let b_42 := rhs.[4].[2] in
  let b_43 := rhs.[4].[3] in
  let b_44 := rhs.[4].[4] in
  let b_45 := rhs.[4].[5] in
  let b_50 := rhs.[5].[0] in
  let b_51 := rhs.[5].[1] in
  let b_52 := rhs.[5].[2] in
  let b_53 := rhs.[5].[3] in
  let b_54 := rhs.[5].[4] in
  let b_55 := rhs.[5].[5] in
  [|
  [|
  a_00 * b_00 + a_01 * b_10 + a_02 * b_20 + a_03 * b_30 + a_04 * b_40 + a_05 * b_50;
  a_00 * b_01 + a_01 * b_11 + a_02 * b_21 + a_03 * b_31 + a_04 * b_41 + a_05 * b_51;
  a_00 * b_02 + a_01 * b_12 + a_02 * b_22 + a_03 * b_32 + a_04 * b_42 + a_05 * b_52;
  a_00 * b_03 + a_01 * b_13 + a_02 * b_23 + a_03 * b_33 + a_04 * b_43 + a_05 * b_53;
  a_00 * b_04 + a_01 * b_14 + a_02 * b_24 + a_03 * b_34 + a_04 * b_44 + a_05 * b_54;
  a_00 * b_05 + a_01 * b_15 + a_02 * b_25 + a_03 * b_35 + a_04 * b_45 + a_05 * b_55|];
  [|
  a_10 * b_00 + a_11 * b_10 + a_12 * b_20 + a_13 * b_30 + a_14 * b_40 + a_15 * b_50;
  a_10 * b_01 + a_11 * b_11 + a_12 * b_21 + a_13 * b_31 + a_14 * b_41 + a_15 * b_51;
  a_10 * b_02 + a_11 * b_12 + a_12 * b_22 + a_13 * b_32 + a_14 * b_42 + a_15 * b_52;
  a_10 * b_03 + a_11 * b_13 + a_12 * b_23 + a_13 * b_33 + a_14 * b_43 + a_15 * b_53;
  a_10 * b_04 + a_11 * b_14 + a_12 * b_24 + a_13 * b_34 + a_14 * b_44 + a_15 * b_54;
  a_10 * b_05 + a_11 * b_15 + a_12 * b_25 + a_13 * b_35 + a_14 * b_45 + a_15 * b_55|];
  [|
  a_20 * b_00 + a_21 * b_10 + a_22 * b_20 + a_23 * b_30 + a_24 * b_40 + a_25 * b_50;
  a_20 * b_01 + a_21 * b_11 + a_22 * b_21 + a_23 * b_31 + a_24 * b_41 + a_25 * b_51;
  a_20 * b_02 + a_21 * b_12 + a_22 * b_22 + a_23 * b_32 + a_24 * b_42 + a_25 * b_52;
  a_20 * b_03 + a_21 * b_13 + a_22 * b_23 + a_23 * b_33 + a_24 * b_43 + a_25 * b_53;
  a_20 * b_04 + a_21 * b_14 + a_22 * b_24 + a_23 * b_34 + a_24 * b_44 + a_25 * b_54;
  a_20 * b_05 + a_21 * b_15 + a_22 * b_25 + a_23 * b_35 + a_24 * b_45 + a_25 * b_55|];
  [|
  a_30 * b_00 + a_31 * b_10 + a_32 * b_20 + a_33 * b_30 + a_34 * b_40 + a_35 * b_50;
  a_30 * b_01 + a_31 * b_11 + a_32 * b_21 + a_33 * b_31 + a_34 * b_41 + a_35 * b_51;
  a_30 * b_02 + a_31 * b_12 + a_32 * b_22 + a_33 * b_32 + a_34 * b_42 + a_35 * b_52;
  a_30 * b_03 + a_31 * b_13 + a_32 * b_23 + a_33 * b_33 + a_34 * b_43 + a_35 * b_53;
  a_30 * b_04 + a_31 * b_14 + a_32 * b_24 + a_33 * b_34 + a_34 * b_44 + a_35 * b_54;
  a_30 * b_05 + a_31 * b_15 + a_32 * b_25 + a_33 * b_35 + a_34 * b_45 + a_35 * b_55|];
  [|
  a_40 * b_00 + a_41 * b_10 + a_42 * b_20 + a_43 * b_30 + a_44 * b_40 + a_45 * b_50;
  a_40 * b_01 + a_41 * b_11 + a_42 * b_21 + a_43 * b_31 + a_44 * b_41 + a_45 * b_51;
  a_40 * b_02 + a_41 * b_12 + a_42 * b_22 + a_43 * b_32 + a_44 * b_42 + a_45 * b_52;
  a_40 * b_03 + a_41 * b_13 + a_42 * b_23 + a_43 * b_33 + a_44 * b_43 + a_45 * b_53;
  a_40 * b_04 + a_41 * b_14 + a_42 * b_24 + a_43 * b_34 + a_44 * b_44 + a_45 * b_54;
  a_40 * b_05 + a_41 * b_15 + a_42 * b_25 + a_43 * b_35 + a_44 * b_45 + a_45 * b_55|];
  [|
  a_50 * b_00 + a_51 * b_10 + a_52 * b_20 + a_53 * b_30 + a_54 * b_40 + a_55 * b_50;
  a_50 * b_01 + a_51 * b_11 + a_52 * b_21 + a_53 * b_31 + a_54 * b_41 + a_55 * b_51;
  a_50 * b_02 + a_51 * b_12 + a_52 * b_22 + a_53 * b_32 + a_54 * b_42 + a_55 * b_52;
  a_50 * b_03 + a_51 * b_13 + a_52 * b_23 + a_53 * b_33 + a_54 * b_43 + a_55 * b_53;
  a_50 * b_04 + a_51 * b_14 + a_52 * b_24 + a_53 * b_34 + a_54 * b_44 + a_55 * b_54;
  a_50 * b_05 + a_51 * b_15 + a_52 * b_25 + a_53 * b_35 + a_54 * b_45 + a_55 * b_55|]|].

(** matrix6x6.rs:1468-1485, [impl<T: Num + Copy> Mul<V6<T>> for M66<T>] *)
Definition m66_mul_v {T} `{Num T} (self : M66 T) (rhs : V6 T) : V6 T :=
  let rhs_0 := rhs.[0] in
  let rhs_1 := rhs.[1] in
  let rhs_2 := rhs.[2] in
  let rhs_3 := rhs.[3] in
  let rhs_4 := rhs.[4] in
  let rhs_5 := rhs.[5] in
  let v0 := self.[0].[0] * rhs_0 + self.[0].[1] * rhs_1 + self.[0].[2] * rhs_2 + self.[0].[3] * rhs_3 + self.[0].[4] * rhs_4 + self.[0].[5] * rhs_5 in
  let v1 := self.[1].[0] * rhs_0 + self.[1].[1] * rhs_1 + self.[1].[2] * rhs_2 + self.[1].[3] * rhs_3 + self.[1].[4] * rhs_4 + self.[1].[5] * rhs_5 in
  let v2 := self.[2].[0] * rhs_0 + self.[2].[1] * rhs_1 + self.[2].[2] * rhs_2 + self.[2].[3] * rhs_3 + self.[2].[4] * rhs_4 + self.[2].[5] * rhs_5 in
  let v3 := self.[3].[0] * rhs_0 + self.[3].[1] * rhs_1 + self.[3].[2] * rhs_2 + self.[3].[3] * rhs_3 + self.[3].[4] * rhs_4 + self.[3].[5] * rhs_5 in
  let v4 := self.[4].[0] * rhs_0 + self.[4].[1] * rhs_1 + self.[4].[2] * rhs_2 + self.[4].[3] * rhs_3 + self.[4].[4] * rhs_4 + self.[4].[5] * rhs_5 in
  let v5 := self.[5].[0] * rhs_0 + self.[5].[1] * rhs_1 + self.[5].[2] * rhs_2 + self.[5].[3] * rhs_3 + self.[5].[4] * rhs_4 + self.[5].[5] * rhs_5 in
  [|v0; v1; v2; v3; v4; v5|].

(** matrix6x6.rs:74-120, [impl<T: Float + core::iter::Sum> LinearAlgebra<T> for M66<T>] *)
Definition m66_transpose {T}  (self : M66 T) : M66 T :=
  let a_00 := self.[0].[0] in
  let a_01 := self.[0].[1] in
  let a_02 := self.[0].[2] in
  let a_03 := self.[0].[3] in
  let a_04 := self.[0].[4] in
  let a_05 := self.[0].[5] in
  let a_10 := self.[1].[0] in
  let a_11 := self.[1].[1] in
  let a_12 := self.[1].[2] in
  let a_13 := self.[1].[3] in
  let a_14 := self.[1].[4] in
  let a_15 := self.[1].[5] in
  let a_20 := self.[2].[0] in
  let a_21 := self.[2].[1] in
  let a_22 := self.[2].[2] in
  let a_23 := self.[2].[3] in
  let a_24 := self.[2].[4] in
  let a_25 := self.[2].[5] in
  let a_30 := self.[3].[0] in
  let a_31 := self.[3].[1] in
  let a_32 := self.[3].[2] in
  let a_33 := self.[3].[3] in
  let a_34 := self.[3].[4] in
  let a_35 := self.[3].[5] in
  let a_40 := self.[4].[0] in
  let a_41 := self.[4].[1] in
  let a_42 := self.[4].[2] in
  let a_43 := self.[4].[3] in
  let a_44 := self.[4].[4] in
  let a_45 := self.[4].[5] in
  let a_50 := self.[5].[0] in
  let a_51 := self.[5].[1] in
  let a_52 := self.[5].[2] in
  let a_53 := self.[5].[3] in
  let a_54 := self.[5].[4] in
  let a_55 := self.[5].[5] in
  [|
  [|a_00; a_10; a_20; a_30; a_40; a_50|];
  [|a_01; a_11; a_21; a_31; a_41; a_51|];
  [|a_02; a_12; a_22; a_32; a_42; a_52|];
  [|a_03; a_13; a_23; a_33; a_43; a_53|];
  [|a_04; a_14; a_24; a_34; a_44; a_54|];
  [|a_05; a_15; a_25; a_35; a_45; a_55|]|].

(** matrix6x6.rs:123-125, [impl<T: Float + core::iter::Sum> LinearAlgebra<T> for M66<T>] *)
Definition m66_trace {T} `{Num T} (self : M66 T) : T :=
  self.[0].[0] + self.[1].[1] + self.[2].[2] + self.[3].[3] + self.[4].[4] + self.[5].[5].

(** matrix6x6.rs:127-135, [norm2]: [iter().flatten()] lists the cells row by row, [sum()]
    folds [+] from zero. *)
Definition m66_norm2 {T} `{Num T} `{Float T} (self : M66 T) : T :=
  fsqrt (fold_left add (map (fun element => element * element)
                            (concat (map alist (alist self)))) zero).

(** matrix6x6.rs:138-896, [impl<T: Float + core::iter::Sum> LinearAlgebra<T> for M66<T>] *)
Definition m66_det {T} `{Num T} (self : M66 T) : T :=
  let a_00 := self.[0].[0] in
  let a_01 := self.[0].[1] in
  let a_02 := self.[0].[2] in
  let a_03 := self.[0].[3] in
  let a_04 := self.[0].[4] in
  let a_05 := self.[0].[5] in
  let a_10 := self.[1].[0] in
  let a_11 := self.[1].[1] in
  let a_12 := self.[1].[2] in
  let a_13 := self.[1].[3] in
  let a_14 := self.[1].[4] in
  let a_15 := self.[1].[5] in
  let a_20 := self.[2].[0] in
  let a_21 := self.[2].[1] in
  let a_22 := self.[2].[2] in
  let a_23 := self.[2].[3] in
  let a_24 := self.[2].[4] in
  let a_25 := self.[2].[5] in
  let a_30 := self.[3].[0] in
  let a_31 := self.[3].[1] in
  let a_32 := self.[3].[2] in
  let a_33 := self.[3].[3] in
  let a_34 := self.[3].[4] in
  let a_35 := self.[3].[5] in
  let a_40 := self.[4].[0] in
  let a_41 := self.[4].[1] in
  let a_42 := self.[4].[2] in
  let a_43 := self.[4].[3] in
  let a_44 := self.[4].[4] in
  let a_45 := self.[4].[5] in
  let a_50 := self.[5].[0] in
  let a_51 := self.[5].[1] in
  let a_52 := self.[5].[2] in
  let a_53 := self.[5].[3] in
  let a_54 := self.[5].[4] in
  let a_55 := self.[5].[5] in
  a_00 * a_11 * a_22 * a_33 * a_44 * a_55
  - a_00 * a_11 * a_22 * a_33 * a_45 * a_54
  - a_00 * a_11 * a_22 * a_34 * a_43 * a_55
  + a_00 * a_11 * a_22 * a_34 * a_45 * a_53
  + a_00 * a_11 * a_22 * a_35 * a_43 * a_54
  - a_00 * a_11 * a_22 * a_35 * a_44 * a_53
  - a_00 * a_11 * a_23 * a_32 * a_44 * a_55
  + a_00 * a_11 * a_23 * a_32 * a_45 * a_54
  + a_00 * a_11 * a_23 * a_34 * a_42 * a_55
  - a_00 * a_11 * a_23 * a_34 * a_45 * a_52
  - a_00 * a_11 * a_23 * a_35 * a_42 * a_54
  + a_00 * a_11 * a_23 * a_35 * a_44 * a_52
  + a_00 * a_11 * a_24 * a_32 * a_43 * a_55
  - a_00 * a_11 * a_24 * a_32 * a_45 * a_53
  - a_00 * a_11 * a_24 * a_33 * a_42 * a_55
  + a_00 * a_11 * a_24 * a_33 * a_45 * a_52
  + a_00 * a_11 * a_24 * a_35 * a_42 * a_53
  - a_00 * a_11 * a_24 * a_35 * a_43 * a_52
  - a_00 * a_11 * a_25 * a_32 * a_43 * a_54
  + a_00 * a_11 * a_25 * a_32 * a_44 * a_53
  + a_00 * a_11 * a_25 * a_33 * a_42 * a_54
  - a_00 * a_11 * a_25 * a_33 * a_44 * a_52
  - a_00 * a_11 * a_25 * a_34 * a_42 * a_53
  + a_00 * a_11 * a_25 * a_34 * a_43 * a_52
  - a_00 * a_12 * a_21 * a_33 * a_44 * a_55
  + a_00 * a_12 * a_21 * a_33 * a_45 * a_54
  + a_00 * a_12 * a_21 * a_34 * a_43 * a_55
  - a_00 * a_12 * a_21 * a_34 * a_45 * a_53
  - a_00 * a_12 * a_21 * a_35 * a_43 * a_54
  + a_00 * a_12 * a_21 * a_35 * a_44 * a_53
  + a_00 * a_12 * a_23 * a_31 * a_44 * a_55
  - a_00 * a_12 * a_23 * a_31 * a_45 * a_54
  - a_00 * a_12 * a_23 * a_34 * a_41 * a_55
  + a_00 * a_12 * a_23 * a_34 * a_45 * a_51
  + a_00 * a_12 * a_23 * a_35 * a_41 * a_54
  - a_00 * a_12 * a_23 * a_35 * a_44 * a_51
  - a_00 * a_12 * a_24 * a_31 * a_43 * a_55
  + a_00 * a_12 * a_24 * a_31 * a_45 * a_53
  + a_00 * a_12 * a_24 * a_33 * a_41 * a_55
  - a_00 * a_12 * a_24 * a_33 * a_45 * a_51
  - a_00 * a_12 * a_24 * a_35 * a_41 * a_53
  + a_00 * a_12 * a_24 * a_35 * a_43 * a_51
  + a_00 * a_12 * a_25 * a_31 * a_43 * a_54
  - a_00 * a_12 * a_25 * a_31 * a_44 * a_53
  - a_00 * a_12 * a_25 * a_33 * a_41 * a_54
  + a_00 * a_12 * a_25 * a_33 * a_44 * a_51
  + a_00 * a_12 * a_25 * a_34 * a_41 * a_53
  - a_00 * a_12 * a_25 * a_34 * a_43 * a_51
  + a_00 * a_13 * a_21 * a_32 * a_44 * a_55
  - a_00 * a_13 * a_21 * a_32 * a_45 * a_54
  - a_00 * a_13 * a_21 * a_34 * a_42 * a_55
  + a_00 * a_13 * a_21 * a_34 * a_45 * a_52
  + a_00 * a_13 * a_21 * a_35 * a_42 * a_54
  - a_00 * a_13 * a_21 * a_35 * a_44 * a_52
  - a_00 * a_13 * a_22 * a_31 * a_44 * a_55
  + a_00 * a_13 * a_22 * a_31 * a_45 * a_54
  + a_00 * a_13 * a_22 * a_34 * a_41 * a_55
  - a_00 * a_13 * a_22 * a_34 * a_45 * a_51
  - a_00 * a_13 * a_22 * a_35 * a_41 * a_54
  + a_00 * a_13 * a_22 * a_35 * a_44 * a_51
  + a_00 * a_13 * a_24 * a_31 * a_42 * a_55
  - a_00 * a_13 * a_24 * a_31 * a_45 * a_52
  - a_00 * a_13 * a_24 * a_32 * a_41 * a_55
  + a_00 * a_13 * a_24 * a_32 * a_45 * a_51
  + a_00 * a_13 * a_24 * a_35 * a_41 * a_52
  - a_00 * a_13 * a_24 * a_35 * a_42 * a_51
  - a_00 * a_13 * a_25 * a_31 * a_42 * a_54
  + a_00 * a_13 * a_25 * a_31 * a_44 * a_52
  + a_00 * a_13 * a_25 * a_32 * a_41 * a_54
  - a_00 * a_13 * a_25 * a_32 * a_44 * a_51
  - a_00 * a_13 * a_25 * a_34 * a_41 * a_52
  + a_00 * a_13 * a_25 * a_34 * a_42 * a_51
  - a_00 * a_14 * a_21 * a_32 * a_43 * a_55
  + a_00 * a_14 * a_21 * a_32 * a_45 * a_53
  + a_00 * a_14 * a_21 * a_33 * a_42 * a_55
  - a_00 * a_14 * a_21 * a_33 * a_45 * a_52
  - a_00 * a_14 * a_21 * a_35 * a_42 * a_53
  + a_00 * a_14 * a_21 * a_35 * a_43 * a_52
  + a_00 * a_14 * a_22 * a_31 * a_43 * a_55
  - a_00 * a_14 * a_22 * a_31 * a_45 * a_53
  - a_00 * a_14 * a_22 * a_33 * a_41 * a_55
  + a_00 * a_14 * a_22 * a_33 * a_45 * a_51
  + a_00 * a_14 * a_22 * a_35 * a_41 * a_53
  - a_00 * a_14 * a_22 * a_35 * a_43 * a_51
  - a_00 * a_14 * a_23 * a_31 * a_42 * a_55
  + a_00 * a_14 * a_23 * a_31 * a_45 * a_52
  + a_00 * a_14 * a_23 * a_32 * a_41 * a_55
  - a_00 * a_14 * a_23 * a_32 * a_45 * a_51
  - a_00 * a_14 * a_23 * a_35 * a_41 * a_52
  + a_00 * a_14 * a_23 * a_35 * a_42 * a_51
  + a_00 * a_14 * a_25 * a_31 * a_42 * a_53
  - a_00 * a_14 * a_25 * a_31 * a_43 * a_52
  - a_00 * a_14 * a_25 * a_32 * a_41 * a_53
  + a_00 * a_14 * a_25 * a_32 * a_43 * a_51
  + a_00 * a_14 * a_25 * a_33 * a_41 * a_52
  - a_00 * a_14 * a_25 * a_33 * a_42 * a_51
  + a_00 * a_15 * a_21 * a_32 * a_43 * a_54
  - a_00 * a_15 * a_21 * a_32 * a_44 * a_53
  - a_00 * a_15 * a_21 * a_33 * a_42 * a_54
  + a_00 * a_15 * a_21 * a_33 * a_44 * a_52
  + a_00 * a_15 * a_21 * a_34 * a_42 * a_53
  - a_00 * a_15 * a_21 * a_34 * a_43 * a_52
  - a_00 * a_15 * a_22 * a_31 * a_43 * a_54
  + a_00 * a_15 * a_22 * a_31 * a_44 * a_53
  + a_00 * a_15 * a_22 * a_33 * a_41 * a_54
  - a_00 * a_15 * a_22 * a_33 * a_44 * a_51
  - a_00 * a_15 * a_22 * a_34 * a_41 * a_53
  + a_00 * a_15 * a_22 * a_34 * a_43 * a_51
  + a_00 * a_15 * a_23 * a_31 * a_42 * a_54
  - a_00 * a_15 * a_23 * a_31 * a_44 * a_52
  - a_00 * a_15 * a_23 * a_32 * a_41 * a_54
  + a_00 * a_15 * a_23 * a_32 * a_44 * a_51
  + a_00 * a_15 * a_23 * a_34 * a_41 * a_52
  - a_00 * a_15 * a_23 * a_34 * a_42 * a_51
  - a_00 * a_15 * a_24 * a_31 * a_42 * a_53
  + a_00 * a_15 * a_24 * a_31 * a_43 * a_52
  + a_00 * a_15 * a_24 * a_32 * a_41 * a_53
  - a_00 * a_15 * a_24 * a_32 * a_43 * a_51
  - a_00 * a_15 * a_24 * a_33 * a_41 * a_52
  + a_00 * a_15 * a_24 * a_33 * a_42 * a_51
  - a_01 * a_10 * a_22 * a_33 * a_44 * a_55
  + a_01 * a_10 * a_22 * a_33 * a_45 * a_54
  + a_01 * a_10 * a_22 * a_34 * a_43 * a_55
  - a_01 * a_10 * a_22 * a_34 * a_45 * a_53
  - a_01 * a_10 * a_22 * a_35 * a_43 * a_54
  + a_01 * a_10 * a_22 * a_35 * a_44 * a_53
  + a_01 * a_10 * a_23 * a_32 * a_44 * a_55
  - a_01 * a_10 * a_23 * a_32 * a_45 * a_54
  - a_01 * a_10 * a_23 * a_34 * a_42 * a_55
  + a_01 * a_10 * a_23 * a_34 * a_45 * a_52
  + a_01 * a_10 * a_23 * a_35 * a_42 * a_54
  - a_01 * a_10 * a_23 * a_35 * a_44 * a_52
  - a_01 * a_10 * a_24 * a_32 * a_43 * a_55
  + a_01 * a_10 * a_24 * a_32 * a_45 * a_53
  + a_01 * a_10 * a_24 * a_33 * a_42 * a_55
  - a_01 * a_10 * a_24 * a_33 * a_45 * a_52
  - a_01 * a_10 * a_24 * a_35 * a_42 * a_53
  + a_01 * a_10 * a_24 * a_35 * a_43 * a_52
  + a_01 * a_10 * a_25 * a_32 * a_43 * a_54
  - a_01 * a_10 * a_25 * a_32 * a_44 * a_53
  - a_01 * a_10 * a_25 * a_33 * a_42 * a_54
  + a_01 * a_10 * a_25 * a_33 * a_44 * a_52
  + a_01 * a_10 * a_25 * a_34 * a_42 * a_53
  - a_01 * a_10 * a_25 * a_34 * a_43 * a_52
  + a_01 * a_12 * a_20 * a_33 * a_44 * a_55
  - a_01 * a_12 * a_20 * a_33 * a_45 * a_54
  - a_01 * a_12 * a_20 * a_34 * a_43 * a_55
  + a_01 * a_12 * a_20 * a_34 * a_45 * a_53
  + a_01 * a_12 * a_20 * a_35 * a_43 * a_54
  - a_01 * a_12 * a_20 * a_35 * a_44 * a_53
  - a_01 * a_12 * a_23 * a_30 * a_44 * a_55
  + a_01 * a_12 * a_23 * a_30 * a_45 * a_54
  + a_01 * a_12 * a_23 * a_34 * a_40 * a_55
  - a_01 * a_12 * a_23 * a_34 * a_45 * a_50
  - a_01 * a_12 * a_23 * a_35 * a_40 * a_54
  + a_01 * a_12 * a_23 * a_35 * a_44 * a_50
  + a_01 * a_12 * a_24 * a_30 * a_43 * a_55
  - a_01 * a_12 * a_24 * a_30 * a_45 * a_53
  - a_01 * a_12 * a_24 * a_33 * a_40 * a_55
  + a_01 * a_12 * a_24 * a_33 * a_45 * a_50
  + a_01 * a_12 * a_24 * a_35 * a_40 * a_53
  - a_01 * a_12 * a_24 * a_35 * a_43 * a_50
  - a_01 * a_12 * a_25 * a_30 * a_43 * a_54
  + a_01 * a_12 * a_25 * a_30 * a_44 * a_53
  + a_01 * a_12 * a_25 * a_33 * a_40 * a_54
  - a_01 * a_12 * a_25 * a_33 * a_44 * a_50
  - a_01 * a_12 * a_25 * a_34 * a_40 * a_53
  + a_01 * a_12 * a_25 * a_34 * a_43 * a_50
  - a_01 * a_13 * a_20 * a_32 * a_44 * a_55
  + a_01 * a_13 * a_20 * a_32 * a_45 * a_54
  + a_01 * a_13 * a_20 * a_34 * a_42 * a_55
  - a_01 * a_13 * a_20 * a_34 * a_45 * a_52
  - a_01 * a_13 * a_20 * a_35 * a_42 * a_54
  + a_01 * a_13 * a_20 * a_35 * a_44 * a_52
  + a_01 * a_13 * a_22 * a_30 * a_44 * a_55
  - a_01 * a_13 * a_22 * a_30 * a_45 * a_54
  - a_01 * a_13 * a_22 * a_34 * a_40 * a_55
  + a_01 * a_13 * a_22 * a_34 * a_45 * a_50
  + a_01 * a_13 * a_22 * a_35 * a_40 * a_54
  - a_01 * a_13 * a_22 * a_35 * a_44 * a_50
  - a_01 * a_13 * a_24 * a_30 * a_42 * a_55
  + a_01 * a_13 * a_24 * a_30 * a_45 * a_52
  + a_01 * a_13 * a_24 * a_32 * a_40 * a_55
  - a_01 * a_13 * a_24 * a_32 * a_45 * a_50
  - a_01 * a_13 * a_24 * a_35 * a_40 * a_52
  + a_01 * a_13 * a_24 * a_35 * a_42 * a_50
  + a_01 * a_13 * a_25 * a_30 * a_42 * a_54
  - a_01 * a_13 * a_25 * a_30 * a_44 * a_52
  - a_01 * a_13 * a_25 * a_32 * a_40 * a_54
  + a_01 * a_13 * a_25 * a_32 * a_44 * a_50
  + a_01 * a_13 * a_25 * a_34 * a_40 * a_52
  - a_01 * a_13 * a_25 * a_34 * a_42 * a_50
  + a_01 * a_14 * a_20 * a_32 * a_43 * a_55
  - a_01 * a_14 * a_20 * a_32 * a_45 * a_53
  - a_01 * a_14 * a_20 * a_33 * a_42 * a_55
  + a_01 * a_14 * a_20 * a_33 * a_45 * a_52
  + a_01 * a_14 * a_20 * a_35 * a_42 * a_53
  - a_01 * a_14 * a_20 * a_35 * a_43 * a_52
  - a_01 * a_14 * a_22 * a_30 * a_43 * a_55
  + a_01 * a_14 * a_22 * a_30 * a_45 * a_53
  + a_01 * a_14 * a_22 * a_33 * a_40 * a_55
  - a_01 * a_14 * a_22 * a_33 * a_45 * a_50
  - a_01 * a_14 * a_22 * a_35 * a_40 * a_53
  + a_01 * a_14 * a_22 * a_35 * a_43 * a_50
  + a_01 * a_14 * a_23 * a_30 * a_42 * a_55
  - a_01 * a_14 * a_23 * a_30 * a_45 * a_52
  - a_01 * a_14 * a_23 * a_32 * a_40 * a_55
  + a_01 * a_14 * a_23 * a_32 * a_45 * a_50
  + a_01 * a_14 * a_23 * a_35 * a_40 * a_52
  - a_01 * a_14 * a_23 * a_35 * a_42 * a_50
  - a_01 * a_14 * a_25 * a_30 * a_42 * a_53
  + a_01 * a_14 * a_25 * a_30 * a_43 * a_52
  + a_01 * a_14 * a_25 * a_32 * a_40 * a_53
  - a_01 * a_14 * a_25 * a_32 * a_43 * a_50
  - a_01 * a_14 * a_25 * a_33 * a_40 * a_52
  + a_01 * a_14 * a_25 * a_33 * a_42 * a_50
  - a_01 * a_15 * a_20 * a_32 * a_43 * a_54
  + a_01 * a_15 * a_20 * a_32 * a_44 * a_53
  + a_01 * a_15 * a_20 * a_33 * a_42 * a_54
  - a_01 * a_15 * a_20 * a_33 * a_44 * a_52
  - a_01 * a_15 * a_20 * a_34 * a_42 * a_53
  + a_01 * a_15 * a_20 * a_34 * a_43 * a_52
  + a_01 * a_15 * a_22 * a_30 * a_43 * a_54
  - a_01 * a_15 * a_22 * a_30 * a_44 * a_53
  - a_01 * a_15 * a_22 * a_33 * a_40 * a_54
  + a_01 * a_15 * a_22 * a_33 * a_44 * a_50
  + a_01 * a_15 * a_22 * a_34 * a_40 * a_53
  - a_01 * a_15 * a_22 * a_34 * a_43 * a_50
  - a_01 * a_15 * a_23 * a_30 * a_42 * a_54
  + a_01 * a_15 * a_23 * a_30 * a_44 * a_52
  + a_01 * a_15 * a_23 * a_32 * a_40 * a_54
  - a_01 * a_15 * a_23 * a_32 * a_44 * a_50
  - a_01 * a_15 * a_23 * a_34 * a_40 * a_52
  + a_01 * a_15 * a_23 * a_34 * a_42 * a_50
  + a_01 * a_15 * a_24 * a_30 * a_42 * a_53
  - a_01 * a_15 * a_24 * a_30 * a_43 * a_52
  - a_01 * a_15 * a_24 * a_32 * a_40 * a_53
  + a_01 * a_15 * a_24 * a_32 * a_43 * a_50
  + a_01 * a_15 * a_24 * a_33 * a_40 * a_52
  - a_01 * a_15 * a_24 * a_33 * a_42 * a_50
  + a_02 * a_10 * a_21 * a_33 * a_44 * a_55
  - a_02 * a_10 * a_21 * a_33 * a_45 * a_54
  - a_02 * a_10 * a_21 * a_34 * a_43 * a_55
  + a_02 * a_10 * a_21 * a_34 * a_45 * a_53
  + a_02 * a_10 * a_21 * a_35 * a_43 * a_54
  - a_02 * a_10 * a_21 * a_35 * a_44 * a_53
  - a_02 * a_10 * a_23 * a_31 * a_44 * a_55
  + a_02 * a_10 * a_23 * a_31 * a_45 * a_54
  + a_02 * a_10 * a_23 * a_34 * a_41 * a_55
  - a_02 * a_10 * a_23 * a_34 * a_45 * a_51
  - a_02 * a_10 * a_23 * a_35 * a_41 * a_54
  + a_02 * a_10 * a_23 * a_35 * a_44 * a_51
  + a_02 * a_10 * a_24 * a_31 * a_43 * a_55
  - a_02 * a_10 * a_24 * a_31 * a_45 * a_53
  - a_02 * a_10 * a_24 * a_33 * a_41 * a_55
  + a_02 * a_10 * a_24 * a_33 * a_45 * a_51
  + a_02 * a_10 * a_24 * a_35 * a_41 * a_53
  - a_02 * a_10 * a_24 * a_35 * a_43 * a_51
  - a_02 * a_10 * a_25 * a_31 * a_43 * a_54
  + a_02 * a_10 * a_25 * a_31 * a_44 * a_53
  + a_02 * a_10 * a_25 * a_33 * a_41 * a_54
  - a_02 * a_10 * a_25 * a_33 * a_44 * a_51
  - a_02 * a_10 * a_25 * a_34 * a_41 * a_53
  + a_02 * a_10 * a_25 * a_34 * a_43 * a_51
  - a_02 * a_11 * a_20 * a_33 * a_44 * a_55
  + a_02 * a_11 * a_20 * a_33 * a_45 * a_54
  + a_02 * a_11 * a_20 * a_34 * a_43 * a_55
  - a_02 * a_11 * a_20 * a_34 * a_45 * a_53
  - a_02 * a_11 * a_20 * a_35 * a_43 * a_54
  + a_02 * a_11 * a_20 * a_35 * a_44 * a_53
  + a_02 * a_11 * a_23 * a_30 * a_44 * a_55
  - a_02 * a_11 * a_23 * a_30 * a_45 * a_54
  - a_02 * a_11 * a_23 * a_34 * a_40 * a_55
  + a_02 * a_11 * a_23 * a_34 * a_45 * a_50
  + a_02 * a_11 * a_23 * a_35 * a_40 * a_54
  - a_02 * a_11 * a_23 * a_35 * a_44 * a_50
  - a_02 * a_11 * a_24 * a_30 * a_43 * a_55
  + a_02 * a_11 * a_24 * a_30 * a_45 * a_53
  + a_02 * a_11 * a_24 * a_33 * a_40 * a_55
  - a_02 * a_11 * a_24 * a_33 * a_45 * a_50
  - a_02 * a_11 * a_24 * a_35 * a_40 * a_53
  + a_02 * a_11 * a_24 * a_35 * a_43 * a_50
  + a_02 * a_11 * a_25 * a_30 * a_43 * a_54
  - a_02 * a_11 * a_25 * a_30 * a_44 * a_53
  - a_02 * a_11 * a_25 * a_33 * a_40 * a_54
  + a_02 * a_11 * a_25 * a_33 * a_44 * a_50
  + a_02 * a_11 * a_25 * a_34 * a_40 * a_53
  - a_02 * a_11 * a_25 * a_34 * a_43 * a_50
  + a_02 * a_13 * a_20 * a_31 * a_44 * a_55
  - a_02 * a_13 * a_20 * a_31 * a_45 * a_54
  - a_02 * a_13 * a_20 * a_34 * a_41 * a_55
  + a_02 * a_13 * a_20 * a_34 * a_45 * a_51
  + a_02 * a_13 * a_20 * a_35 * a_41 * a_54
  - a_02 * a_13 * a_20 * a_35 * a_44 * a_51
  - a_02 * a_13 * a_21 * a_30 * a_44 * a_55
  + a_02 * a_13 * a_21 * a_30 * a_45 * a_54
  + a_02 * a_13 * a_21 * a_34 * a_40 * a_55
  - a_02 * a_13 * a_21 * a_34 * a_45 * a_50
  - a_02 * a_13 * a_21 * a_35 * a_40 * a_54
  + a_02 * a_13 * a_21 * a_35 * a_44 * a_50
  + a_02 * a_13 * a_24 * a_30 * a_41 * a_55
  - a_02 * a_13 * a_24 * a_30 * a_45 * a_51
  - a_02 * a_13 * a_24 * a_31 * a_40 * a_55
  + a_02 * a_13 * a_24 * a_31 * a_45 * a_50
  + a_02 * a_13 * a_24 * a_35 * a_40 * a_51
  - a_02 * a_13 * a_24 * a_35 * a_41 * a_50
  - a_02 * a_13 * a_25 * a_30 * a_41 * a_54
  + a_02 * a_13 * a_25 * a_30 * a_44 * a_51
  + a_02 * a_13 * a_25 * a_31 * a_40 * a_54
  - a_02 * a_13 * a_25 * a_31 * a_44 * a_50
  - a_02 * a_13 * a_25 * a_34 * a_40 * a_51
  + a_02 * a_13 * a_25 * a_34 * a_41 * a_50
  - a_02 * a_14 * a_20 * a_31 * a_43 * a_55
  + a_02 * a_14 * a_20 * a_31 * a_45 * a_53
  + a_02 * a_14 * a_20 * a_33 * a_41 * a_55
  - a_02 * a_14 * a_20 * a_33 * a_45 * a_51
  - a_02 * a_14 * a_20 * a_35 * a_41 * a_53
  + a_02 * a_14 * a_20 * a_35 * a_43 * a_51
  + a_02 * a_14 * a_21 * a_30 * a_43 * a_55
  - a_02 * a_14 * a_21 * a_30 * a_45 * a_53
  - a_02 * a_14 * a_21 * a_33 * a_40 * a_55
  + a_02 * a_14 * a_21 * a_33 * a_45 * a_50
  + a_02 * a_14 * a_21 * a_35 * a_40 * a_53
  - a_02 * a_14 * a_21 * a_35 * a_43 * a_50
  - a_02 * a_14 * a_23 * a_30 * a_41 * a_55
  + a_02 * a_14 * a_23 * a_30 * a_45 * a_51
  + a_02 * a_14 * a_23 * a_31 * a_40 * a_55
  - a_02 * a_14 * a_23 * a_31 * a_45 * a_50
  - a_02 * a_14 * a_23 * a_35 * a_40 * a_51
  + a_02 * a_14 * a_23 * a_35 * a_41 * a_50
  + a_02 * a_14 * a_25 * a_30 * a_41 * a_53
  - a_02 * a_14 * a_25 * a_30 * a_43 * a_51
  - a_02 * a_14 * a_25 * a_31 * a_40 * a_53
  + a_02 * a_14 * a_25 * a_31 * a_43 * a_50
  + a_02 * a_14 * a_25 * a_33 * a_40 * a_51
  - a_02 * a_14 * a_25 * a_33 * a_41 * a_50
  + a_02 * a_15 * a_20 * a_31 * a_43 * a_54
  - a_02 * a_15 * a_20 * a_31 * a_44 * a_53
  - a_02 * a_15 * a_20 * a_33 * a_41 * a_54
  + a_02 * a_15 * a_20 * a_33 * a_44 * a_51
  + a_02 * a_15 * a_20 * a_34 * a_41 * a_53
  - a_02 * a_15 * a_20 * a_34 * a_43 * a_51
  - a_02 * a_15 * a_21 * a_30 * a_43 * a_54
  + a_02 * a_15 * a_21 * a_30 * a_44 * a_53
  + a_02 * a_15 * a_21 * a_33 * a_40 * a_54
  - a_02 * a_15 * a_21 * a_33 * a_44 * a_50
  - a_02 * a_15 * a_21 * a_34 * a_40 * a_53
  + a_02 * a_15 * a_21 * a_34 * a_43 * a_50
  + a_02 * a_15 * a_23 * a_30 * a_41 * a_54
  - a_02 * a_15 * a_23 * a_30 * a_44 * a_51
  - a_02 * a_15 * a_23 * a_31 * a_40 * a_54
  + a_02 * a_15 * a_23 * a_31 * a_44 * a_50
  + a_02 * a_15 * a_23 * a_34 * a_40 * a_51
  - a_02 * a_15 * a_23 * a_34 * a_41 * a_50
  - a_02 * a_15 * a_24 * a_30 * a_41 * a_53
  + a_02 * a_15 * a_24 * a_30 * a_43 * a_51
  + a_02 * a_15 * a_24 * a_31 * a_40 * a_53
  - a_02 * a_15 * a_24 * a_31 * a_43 * a_50
  - a_02 * a_15 * a_24 * a_33 * a_40 * a_51
  + a_02 * a_15 * a_24 * a_33 * a_41 * a_50
  - a_03 * a_10 * a_21 * a_32 * a_44 * a_55
  + a_03 * a_10 * a_21 * a_32 * a_45 * a_54
  + a_03 * a_10 * a_21 * a_34 * a_42 * a_55
  - a_03 * a_10 * a_21 * a_34 * a_45 * a_52
  - a_03 * a_10 * a_21 * a_35 * a_42 * a_54
  + a_03 * a_10 * a_21 * a_35 * a_44 * a_52
  + a_03 * a_10 * a_22 * a_31 * a_44 * a_55
  - a_03 * a_10 * a_22 * a_31 * a_45 * a_54
  - a_03 * a_10 * a_22 * a_34 * a_41 * a_55
  + a_03 * a_10 * a_22 * a_34 * a_45 * a_51
  + a_03 * a_10 * a_22 * a_35 * a_41 * a_54
  - a_03 * a_10 * a_22 * a_35 * a_44 * a_51
  - a_03 * a_10 * a_24 * a_31 * a_42 * a_55
  + a_03 * a_10 * a_24 * a_31 * a_45 * a_52
  + a_03 * a_10 * a_24 * a_32 * a_41 * a_55
  - a_03 * a_10 * a_24 * a_32 * a_45 * a_51
  - a_03 * a_10 * a_24 * a_35 * a_41 * a_52
  + a_03 * a_10 * a_24 * a_35 * a_42 * a_51
  + a_03 * a_10 * a_25 * a_31 * a_42 * a_54
  - a_03 * a_10 * a_25 * a_31 * a_44 * a_52
  - a_03 * a_10 * a_25 * a_32 * a_41 * a_54
  + a_03 * a_10 * a_25 * a_32 * a_44 * a_51
  + a_03 * a_10 * a_25 * a_34 * a_41 * a_52
  - a_03 * a_10 * a_25 * a_34 * a_42 * a_51
  + a_03 * a_11 * a_20 * a_32 * a_44 * a_55
  - a_03 * a_11 * a_20 * a_32 * a_45 * a_54
  - a_03 * a_11 * a_20 * a_34 * a_42 * a_55
  + a_03 * a_11 * a_20 * a_34 * a_45 * a_52
  + a_03 * a_11 * a_20 * a_35 * a_42 * a_54
  - a_03 * a_11 * a_20 * a_35 * a_44 * a_52
  - a_03 * a_11 * a_22 * a_30 * a_44 * a_55
  + a_03 * a_11 * a_22 * a_30 * a_45 * a_54
  + a_03 * a_11 * a_22 * a_34 * a_40 * a_55
  - a_03 * a_11 * a_22 * a_34 * a_45 * a_50
  - a_03 * a_11 * a_22 * a_35 * a_40 * a_54
  + a_03 * a_11 * a_22 * a_35 * a_44 * a_50
  + a_03 * a_11 * a_24 * a_30 * a_42 * a_55
  - a_03 * a_11 * a_24 * a_30 * a_45 * a_52
  - a_03 * a_11 * a_24 * a_32 * a_40 * a_55
  + a_03 * a_11 * a_24 * a_32 * a_45 * a_50
  + a_03 * a_11 * a_24 * a_35 * a_40 * a_52
  - a_03 * a_11 * a_24 * a_35 * a_42 * a_50
  - a_03 * a_11 * a_25 * a_30 * a_42 * a_54
  + a_03 * a_11 * a_25 * a_30 * a_44 * a_52
  + a_03 * a_11 * a_25 * a_32 * a_40 * a_54
  - a_03 * a_11 * a_25 * a_32 * a_44 * a_50
  - a_03 * a_11 * a_25 * a_34 * a_40 * a_52
  + a_03 * a_11 * a_25 * a_34 * a_42 * a_50
  - a_03 * a_12 * a_20 * a_31 * a_44 * a_55
  + a_03 * a_12 * a_20 * a_31 * a_45 * a_54
  + a_03 * a_12 * a_20 * a_34 * a_41 * a_55
  - a_03 * a_12 * a_20 * a_34 * a_45 * a_51
  - a_03 * a_12 * a_20 * a_35 * a_41 * a_54
  + a_03 * a_12 * a_20 * a_35 * a_44 * a_51
  + a_03 * a_12 * a_21 * a_30 * a_44 * a_55
  - a_03 * a_12 * a_21 * a_30 * a_45 * a_54
  - a_03 * a_12 * a_21 * a_34 * a_40 * a_55
  + a_03 * a_12 * a_21 * a_34 * a_45 * a_50
  + a_03 * a_12 * a_21 * a_35 * a_40 * a_54
  - a_03 * a_12 * a_21 * a_35 * a_44 * a_50
  - a_03 * a_12 * a_24 * a_30 * a_41 * a_55
  + a_03 * a_12 * a_24 * a_30 * a_45 * a_51
  + a_03 * a_12 * a_24 * a_31 * a_40 * a_55
  - a_03 * a_12 * a_24 * a_31 * a_45 * a_50
  - a_03 * a_12 * a_24 * a_35 * a_40 * a_51
  + a_03 * a_12 * a_24 * a_35 * a_41 * a_50
  + a_03 * a_12 * a_25 * a_30 * a_41 * a_54
  - a_03 * a_12 * a_25 * a_30 * a_44 * a_51
  - a_03 * a_12 * a_25 * a_31 * a_40 * a_54
  + a_03 * a_12 * a_25 * a_31 * a_44 * a_50
  + a_03 * a_12 * a_25 * a_34 * a_40 * a_51
  - a_03 * a_12 * a_25 * a_34 * a_41 * a_50
  + a_03 * a_14 * a_20 * a_31 * a_42 * a_55
  - a_03 * a_14 * a_20 * a_31 * a_45 * a_52
  - a_03 * a_14 * a_20 * a_32 * a_41 * a_55
  + a_03 * a_14 * a_20 * a_32 * a_45 * a_51
  + a_03 * a_14 * a_20 * a_35 * a_41 * a_52
  - a_03 * a_14 * a_20 * a_35 * a_42 * a_51
  - a_03 * a_14 * a_21 * a_30 * a_42 * a_55
  + a_03 * a_14 * a_21 * a_30 * a_45 * a_52
  + a_03 * a_14 * a_21 * a_32 * a_40 * a_55
  - a_03 * a_14 * a_21 * a_32 * a_45 * a_50
  - a_03 * a_14 * a_21 * a_35 * a_40 * a_52
  + a_03 * a_14 * a_21 * a_35 * a_42 * a_50
  + a_03 * a_14 * a_22 * a_30 * a_41 * a_55
  - a_03 * a_14 * a_22 * a_30 * a_45 * a_51
  - a_03 * a_14 * a_22 * a_31 * a_40 * a_55
  + a_03 * a_14 * a_22 * a_31 * a_45 * a_50
  + a_03 * a_14 * a_22 * a_35 * a_40 * a_51
  - a_03 * a_14 * a_22 * a_35 * a_41 * a_50
  - a_03 * a_14 * a_25 * a_30 * a_41 * a_52
  + a_03 * a_14 * a_25 * a_30 * a_42 * a_51
  + a_03 * a_14 * a_25 * a_31 * a_40 * a_52
  - a_03 * a_14 * a_25 * a_31 * a_42 * a_50
  - a_03 * a_14 * a_25 * a_32 * a_40 * a_51
  + a_03 * a_14 * a_25 * a_32 * a_41 * a_50
  - a_03 * a_15 * a_20 * a_31 * a_42 * a_54
  + a_03 * a_15 * a_20 * a_31 * a_44 * a_52
  + a_03 * a_15 * a_20 * a_32 * a_41 * a_54
  - a_03 * a_15 * a_20 * a_32 * a_44 * a_51
  - a_03 * a_15 * a_20 * a_34 * a_41 * a_52
  + a_03 * a_15 * a_20 * a_34 * a_42 * a_51
  + a_03 * a_15 * a_21 * a_30 * a_42 * a_54
  - a_03 * a_15 * a_21 * a_30 * a_44 * a_52
  - a_03 * a_15 * a_21 * a_32 * a_40 * a_54
  + a_03 * a_15 * a_21 * a_32 * a_44 * a_50
  + a_03 * a_15 * a_21 * a_34 * a_40 * a_52
  - a_03 * a_15 * a_21 * a_34 * a_42 * a_50
  - a_03 * a_15 * a_22 * a_30 * a_41 * a_54
  + a_03 * a_15 * a_22 * a_30 * a_44 * a_51
  + a_03 * a_15 * a_22 * a_31 * a_40 * a_54
  - a_03 * a_15 * a_22 * a_31 * a_44 * a_50
  - a_03 * a_15 * a_22 * a_34 * a_40 * a_51
  + a_03 * a_15 * a_22 * a_34 * a_41 * a_50
  + a_03 * a_15 * a_24 * a_30 * a_41 * a_52
  - a_03 * a_15 * a_24 * a_30 * a_42 * a_51
  - a_03 * a_15 * a_24 * a_31 * a_40 * a_52
  + a_03 * a_15 * a_24 * a_31 * a_42 * a_50
  + a_03 * a_15 * a_24 * a_32 * a_40 * a_51
  - a_03 * a_15 * a_24 * a_32 * a_41 * a_50
  + a_04 * a_10 * a_21 * a_32 * a_43 * a_55
  - a_04 * a_10 * a_21 * a_32 * a_45 * a_53
  - a_04 * a_10 * a_21 * a_33 * a_42 * a_55
  + a_04 * a_10 * a_21 * a_33 * a_45 * a_52
  + a_04 * a_10 * a_21 * a_35 * a_42 * a_53
  - a_04 * a_10 * a_21 * a_35 * a_43 * a_52
  - a_04 * a_10 * a_22 * a_31 * a_43 * a_55
  + a_04 * a_10 * a_22 * a_31 * a_45 * a_53
  + a_04 * a_10 * a_22 * a_33 * a_41 * a_55
  - a_04 * a_10 * a_22 * a_33 * a_45 * a_51
  - a_04 * a_10 * a_22 * a_35 * a_41 * a_53
  + a_04 * a_10 * a_22 * a_35 * a_43 * a_51
  + a_04 * a_10 * a_23 * a_31 * a_42 * a_55
  - a_04 * a_10 * a_23 * a_31 * a_45 * a_52
  - a_04 * a_10 * a_23 * a_32 * a_41 * a_55
  + a_04 * a_10 * a_23 * a_32 * a_45 * a_51
  + a_04 * a_10 * a_23 * a_35 * a_41 * a_52
  - a_04 * a_10 * a_23 * a_35 * a_42 * a_51
  - a_04 * a_10 * a_25 * a_31 * a_42 * a_53
  + a_04 * a_10 * a_25 * a_31 * a_43 * a_52
  + a_04 * a_10 * a_25 * a_32 * a_41 * a_53
  - a_04 * a_10 * a_25 * a_32 * a_43 * a_51
  - a_04 * a_10 * a_25 * a_33 * a_41 * a_52
  + a_04 * a_10 * a_25 * a_33 * a_42 * a_51
  - a_04 * a_11 * a_20 * a_32 * a_43 * a_55
  + a_04 * a_11 * a_20 * a_32 * a_45 * a_53
  + a_04 * a_11 * a_20 * a_33 * a_42 * a_55
  - a_04 * a_11 * a_20 * a_33 * a_45 * a_52
  - a_04 * a_11 * a_20 * a_35 * a_42 * a_53
  + a_04 * a_11 * a_20 * a_35 * a_43 * a_52
  + a_04 * a_11 * a_22 * a_30 * a_43 * a_55
  - a_04 * a_11 * a_22 * a_30 * a_45 * a_53
  - a_04 * a_11 * a_22 * a_33 * a_40 * a_55
  + a_04 * a_11 * a_22 * a_33 * a_45 * a_50
  + a_04 * a_11 * a_22 * a_35 * a_40 * a_53
  - a_04 * a_11 * a_22 * a_35 * a_43 * a_50
  - a_04 * a_11 * a_23 * a_30 * a_42 * a_55
  + a_04 * a_11 * a_23 * a_30 * a_45 * a_52
  + a_04 * a_11 * a_23 * a_32 * a_40 * a_55
  - a_04 * a_11 * a_23 * a_32 * a_45 * a_50
  - a_04 * a_11 * a_23 * a_35 * a_40 * a_52
  + a_04 * a_11 * a_23 * a_35 * a_42 * a_50
  + a_04 * a_11 * a_25 * a_30 * a_42 * a_53
  - a_04 * a_11 * a_25 * a_30 * a_43 * a_52
  - a_04 * a_11 * a_25 * a_32 * a_40 * a_53
  + a_04 * a_11 * a_25 * a_32 * a_43 * a_50
  + a_04 * a_11 * a_25 * a_33 * a_40 * a_52
  - a_04 * a_11 * a_25 * a_33 * a_42 * a_50
  + a_04 * a_12 * a_20 * a_31 * a_43 * a_55
  - a_04 * a_12 * a_20 * a_31 * a_45 * a_53
  - a_04 * a_12 * a_20 * a_33 * a_41 * a_55
  + a_04 * a_12 * a_20 * a_33 * a_45 * a_51
  + a_04 * a_12 * a_20 * a_35 * a_41 * a_53
  - a_04 * a_12 * a_20 * a_35 * a_43 * a_51
  - a_04 * a_12 * a_21 * a_30 * a_43 * a_55
  + a_04 * a_12 * a_21 * a_30 * a_45 * a_53
  + a_04 * a_12 * a_21 * a_33 * a_40 * a_55
  - a_04 * a_12 * a_21 * a_33 * a_45 * a_50
  - a_04 * a_12 * a_21 * a_35 * a_40 * a_53
  + a_04 * a_12 * a_21 * a_35 * a_43 * a_50
  + a_04 * a_12 * a_23 * a_30 * a_41 * a_55
  - a_04 * a_12 * a_23 * a_30 * a_45 * a_51
  - a_04 * a_12 * a_23 * a_31 * a_40 * a_55
  + a_04 * a_12 * a_23 * a_31 * a_45 * a_50
  + a_04 * a_12 * a_23 * a_35 * a_40 * a_51
  - a_04 * a_12 * a_23 * a_35 * a_41 * a_50
  - a_04 * a_12 * a_25 * a_30 * a_41 * a_53
  + a_04 * a_12 * a_25 * a_30 * a_43 * a_51
  + a_04 * a_12 * a_25 * a_31 * a_40 * a_53
  - a_04 * a_12 * a_25 * a_31 * a_43 * a_50
  - a_04 * a_12 * a_25 * a_33 * a_40 * a_51
  + a_04 * a_12 * a_25 * a_33 * a_41 * a_50
  - a_04 * a_13 * a_20 * a_31 * a_42 * a_55
  + a_04 * a_13 * a_20 * a_31 * a_45 * a_52
  + a_04 * a_13 * a_20 * a_32 * a_41 * a_55
  - a_04 * a_13 * a_20 * a_32 * a_45 * a_51
  - a_04 * a_13 * a_20 * a_35 * a_41 * a_52
  + a_04 * a_13 * a_20 * a_35 * a_42 * a_51
  + a_04 * a_13 * a_21 * a_30 * a_42 * a_55
  - a_04 * a_13 * a_21 * a_30 * a_45 * a_52
  - a_04 * a_13 * a_21 * a_32 * a_40 * a_55
  + a_04 * a_13 * a_21 * a_32 * a_45 * a_50
  + a_04 * a_13 * a_21 * a_35 * a_40 * a_52
  - a_04 * a_13 * a_21 * a_35 * a_42 * a_50
  - a_04 * a_13 * a_22 * a_30 * a_41 * a_55
  + a_04 * a_13 * a_22 * a_30 * a_45 * a_51
  + a_04 * a_13 * a_22 * a_31 * a_40 * a_55
  - a_04 * a_13 * a_22 * a_31 * a_45 * a_50
  - a_04 * a_13 * a_22 * a_35 * a_40 * a_51
  + a_04 * a_13 * a_22 * a_35 * a_41 * a_50
  + a_04 * a_13 * a_25 * a_30 * a_41 * a_52
  - a_04 * a_13 * a_25 * a_30 * a_42 * a_51
  - a_04 * a_13 * a_25 * a_31 * a_40 * a_52
  + a_04 * a_13 * a_25 * a_31 * a_42 * a_50
  + a_04 * a_13 * a_25 * a_32 * a_40 * a_51
  - a_04 * a_13 * a_25 * a_32 * a_41 * a_50
  + a_04 * a_15 * a_20 * a_31 * a_42 * a_53
  - a_04 * a_15 * a_20 * a_31 * a_43 * a_52
  - a_04 * a_15 * a_20 * a_32 * a_41 * a_53
  + a_04 * a_15 * a_20 * a_32 * a_43 * a_51
  + a_04 * a_15 * a_20 * a_33 * a_41 * a_52
  - a_04 * a_15 * a_20 * a_33 * a_42 * a_51
  - a_04 * a_15 * a_21 * a_30 * a_42 * a_53
  + a_04 * a_15 * a_21 * a_30 * a_43 * a_52
  + a_04 * a_15 * a_21 * a_32 * a_40 * a_53
  - a_04 * a_15 * a_21 * a_32 * a_43 * a_50
  - a_04 * a_15 * a_21 * a_33 * a_40 * a_52
  + a_04 * a_15 * a_21 * a_33 * a_42 * a_50
  + a_04 * a_15 * a_22 * a_30 * a_41 * a_53
  - a_04 * a_15 * a_22 * a_30 * a_43 * a_51
  - a_04 * a_15 * a_22 * a_31 * a_40 * a_53
  + a_04 * a_15 * a_22 * a_31 * a_43 * a_50
  + a_04 * a_15 * a_22 * a_33 * a_40 * a_51
  - a_04 * a_15 * a_22 * a_33 * a_41 * a_50
  - a_04 * a_15 * a_23 * a_30 * a_41 * a_52
  + a_04 * a_15 * a_23 * a_30 * a_42 * a_51
  + a_04 * a_15 * a_23 * a_31 * a_40 * a_52
  - a_04 * a_15 * a_23 * a_31 * a_42 * a_50
  - a_04 * a_15 * a_23 * a_32 * a_40 * a_51
  + a_04 * a_15 * a_23 * a_32 * a_41 * a_50
  - a_05 * a_10 * a_21 * a_32 * a_43 * a_54
  + a_05 * a_10 * a_21 * a_32 * a_44 * a_53
  + a_05 * a_10 * a_21 * a_33 * a_42 * a_54
  - a_05 * a_10 * a_21 * a_33 * a_44 * a_52
  - a_05 * a_10 * a_21 * a_34 * a_42 * a_53
  + a_05 * a_10 * a_21 * a_34 * a_43 * a_52
  + a_05 * a_10 * a_22 * a_31 * a_43 * a_54
  - a_05 * a_10 * a_22 * a_31 * a_44 * a_53
  - a_05 * a_10 * a_22 * a_33 * a_41 * a_54
  + a_05 * a_10 * a_22 * a_33 * a_44 * a_51
  + a_05 * a_10 * a_22 * a_34 * a_41 * a_53
  - a_05 * a_10 * a_22 * a_34 * a_43 * a_51
  - a_05 * a_10 * a_23 * a_31 * a_42 * a_54
  + a_05 * a_10 * a_23 * a_31 * a_44 * a_52
  + a_05 * a_10 * a_23 * a_32 * a_41 * a_54
  - a_05 * a_10 * a_23 * a_32 * a_44 * a_51
  - a_05 * a_10 * a_23 * a_34 * a_41 * a_52
  + a_05 * a_10 * a_23 * a_34 * a_42 * a_51
  + a_05 * a_10 * a_24 * a_31 * a_42 * a_53
  - a_05 * a_10 * a_24 * a_31 * a_43 * a_52
  - a_05 * a_10 * a_24 * a_32 * a_41 * a_53
  + a_05 * a_10 * a_24 * a_32 * a_43 * a_51
  + a_05 * a_10 * a_24 * a_33 * a_41 * a_52
  - a_05 * a_10 * a_24 * a_33 * a_42 * a_51
  + a_05 * a_11 * a_20 * a_32 * a_43 * a_54
  - a_05 * a_11 * a_20 * a_32 * a_44 * a_53
  - a_05 * a_11 * a_20 * a_33 * a_42 * a_54
  + a_05 * a_11 * a_20 * a_33 * a_44 * a_52
  + a_05 * a_11 * a_20 * a_34 * a_42 * a_53
  - a_05 * a_11 * a_20 * a_34 * a_43 * a_52
  - a_05 * a_11 * a_22 * a_30 * a_43 * a_54
  + a_05 * a_11 * a_22 * a_30 * a_44 * a_53
  + a_05 * a_11 * a_22 * a_33 * a_40 * a_54
  - a_05 * a_11 * a_22 * a_33 * a_44 * a_50
  - a_05 * a_11 * a_22 * a_34 * a_40 * a_53
  + a_05 * a_11 * a_22 * a_34 * a_43 * a_50
  + a_05 * a_11 * a_23 * a_30 * a_42 * a_54
  - a_05 * a_11 * a_23 * a_30 * a_44 * a_52
  - a_05 * a_11 * a_23 * a_32 * a_40 * a_54
  + a_05 * a_11 * a_23 * a_32 * a_44 * a_50
  + a_05 * a_11 * a_23 * a_34 * a_40 * a_52
  - a_05 * a_11 * a_23 * a_34 * a_42 * a_50
  - a_05 * a_11 * a_24 * a_30 * a_42 * a_53
  + a_05 * a_11 * a_24 * a_30 * a_43 * a_52
  + a_05 * a_11 * a_24 * a_32 * a_40 * a_53
  - a_05 * a_11 * a_24 * a_32 * a_43 * a_50
  - a_05 * a_11 * a_24 * a_33 * a_40 * a_52
  + a_05 * a_11 * a_24 * a_33 * a_42 * a_50
  - a_05 * a_12 * a_20 * a_31 * a_43 * a_54
  + a_05 * a_12 * a_20 * a_31 * a_44 * a_53
  + a_05 * a_12 * a_20 * a_33 * a_41 * a_54
  - a_05 * a_12 * a_20 * a_33 * a_44 * a_51
  - a_05 * a_12 * a_20 * a_34 * a_41 * a_53
  + a_05 * a_12 * a_20 * a_34 * a_43 * a_51
  + a_05 * a_12 * a_21 * a_30 * a_43 * a_54
  - a_05 * a_12 * a_21 * a_30 * a_44 * a_53
  - a_05 * a_12 * a_21 * a_33 * a_40 * a_54
  + a_05 * a_12 * a_21 * a_33 * a_44 * a_50
  + a_05 * a_12 * a_21 * a_34 * a_40 * a_53
  - a_05 * a_12 * a_21 * a_34 * a_43 * a_50
  - a_05 * a_12 * a_23 * a_30 * a_41 * a_54
  + a_05 * a_12 * a_23 * a_30 * a_44 * a_51
  + a_05 * a_12 * a_23 * a_31 * a_40 * a_54
  - a_05 * a_12 * a_23 * a_31 * a_44 * a_50
  - a_05 * a_12 * a_23 * a_34 * a_40 * a_51
  + a_05 * a_12 * a_23 * a_34 * a_41 * a_50
  + a_05 * a_12 * a_24 * a_30 * a_41 * a_53
  - a_05 * a_12 * a_24 * a_30 * a_43 * a_51
  - a_05 * a_12 * a_24 * a_31 * a_40 * a_53
  + a_05 * a_12 * a_24 * a_31 * a_43 * a_50
  + a_05 * a_12 * a_24 * a_33 * a_40 * a_51
  - a_05 * a_12 * a_24 * a_33 * a_41 * a_50
  + a_05 * a_13 * a_20 * a_31 * a_42 * a_54
  - a_05 * a_13 * a_20 * a_31 * a_44 * a_52
  - a_05 * a_13 * a_20 * a_32 * a_41 * a_54
  + a_05 * a_13 * a_20 * a_32 * a_44 * a_51
  + a_05 * a_13 * a_20 * a_34 * a_41 * a_52
  - a_05 * a_13 * a_20 * a_34 * a_42 * a_51
  - a_05 * a_13 * a_21 * a_30 * a_42 * a_54
  + a_05 * a_13 * a_21 * a_30 * a_44 * a_52
  + a_05 * a_13 * a_21 * a_32 * a_40 * a_54
  - a_05 * a_13 * a_21 * a_32 * a_44 * a_50
  - a_05 * a_13 * a_21 * a_34 * a_40 * a_52
  + a_05 * a_13 * a_21 * a_34 * a_42 * a_50
  + a_05 * a_13 * a_22 * a_30 * a_41 * a_54
  - a_05 * a_13 * a_22 * a_30 * a_44 * a_51
  - a_05 * a_13 * a_22 * a_31 * a_40 * a_54
  + a_05 * a_13 * a_22 * a_31 * a_44 * a_50
  + a_05 * a_13 * a_22 * a_34 * a_40 * a_51
  - a_05 * a_13 * a_22 * a_34 * a_41 * a_50
  - a_05 * a_13 * a_24 * a_30 * a_41 * a_52
  + a_05 * a_13 * a_24 * a_30 * a_42 * a_51
  + a_05 * a_13 * a_24 * a_31 * a_40 * a_52
  - a_05 * a_13 * a_24 * a_31 * a_42 * a_50
  - a_05 * a_13 * a_24 * a_32 * a_40 * a_51
  + a_05 * a_13 * a_24 * a_32 * a_41 * a_50
  - a_05 * a_14 * a_20 * a_31 * a_42 * a_53
  + a_05 * a_14 * a_20 * a_31 * a_43 * a_52
  + a_05 * a_14 * a_20 * a_32 * a_41 * a_53
  - a_05 * a_14 * a_20 * a_32 * a_43 * a_51
  - a_05 * a_14 * a_20 * a_33 * a_41 * a_52
  + a_05 * a_14 * a_20 * a_33 * a_42 * a_51
  + a_05 * a_14 * a_21 * a_30 * a_42 * a_53
  - a_05 * a_14 * a_21 * a_30 * a_43 * a_52
  - a_05 * a_14 * a_21 * a_32 * a_40 * a_53
  + a_05 * a_14 * a_21 * a_32 * a_43 * a_50
  + a_05 * a_14 * a_21 * a_33 * a_40 * a_52
  - a_05 * a_14 * a_21 * a_33 * a_42 * a_50
  - a_05 * a_14 * a_22 * a_30 * a_41 * a_53
  + a_05 * a_14 * a_22 * a_30 * a_43 * a_51
  + a_05 * a_14 * a_22 * a_31 * a_40 * a_53
  - a_05 * a_14 * a_22 * a_31 * a_43 * a_50
  - a_05 * a_14 * a_22 * a_33 * a_40 * a_51
  + a_05 * a_14 * a_22 * a_33 * a_41 * a_50
  + a_05 * a_14 * a_23 * a_30 * a_41 * a_52
  - a_05 * a_14 * a_23 * a_30 * a_42 * a_51
  - a_05 * a_14 * a_23 * a_31 * a_40 * a_52
  + a_05 * a_14 * a_23 * a_31 * a_42 * a_50
  + a_05 * a_14 * a_23 * a_32 * a_40 * a_51
  - a_05 * a_14 * a_23 * a_32 * a_41 * a_50.

(** matrix6x6.rs:1160-1162, [+=] : [*self = *self + other] *)
Definition m66_add_assign {T} `{Num T} (self other : M66 T) : M66 T :=
  m66_add self other.

(** matrix6x6.rs:1299-1301, [-=] : [*self = *self - other] *)
Definition m66_sub_assign {T} `{Num T} (self other : M66 T) : M66 T :=
  m66_sub self other.

(** matrix6x6.rs:1827-1829, [is_zero] (derived [PartialEq]) *)
Definition m66_is_zero {T} `{Num T} (self : M66 T) : bool :=
  aeqb (aeqb eqb) self m66_zeros.

(** matrix6x6.rs:1695-1712, [get_rows] *)
Definition m66_get_rows {T} `{Num T} (self : M66 T) : outcome (arr (V6 T) 6) :=
  ' (r0, r1, r2, r3, r4, r5) <- for_ 0 6 (v6_zeros, v6_zeros, v6_zeros, v6_zeros, v6_zeros, v6_zeros) (fun j st =>
    let ' (r0, r1, r2, r3, r4, r5) := st in
    x <- mget self 0 j ;; r0 <- aset r0 j x ;;
    x <- mget self 1 j ;; r1 <- aset r1 j x ;;
    x <- mget self 2 j ;; r2 <- aset r2 j x ;;
    x <- mget self 3 j ;; r3 <- aset r3 j x ;;
    x <- mget self 4 j ;; r4 <- aset r4 j x ;;
    x <- mget self 5 j ;; r5 <- aset r5 j x ;;
    Ok (r0, r1, r2, r3, r4, r5)) ;;
  Ok [| r0; r1; r2; r3; r4; r5 |].

(** matrix6x6.rs:1714-1731, [get_cols] *)
Definition m66_get_cols {T} `{Num T} (self : M66 T) : outcome (arr (V6 T) 6) :=
  ' (c0, c1, c2, c3, c4, c5) <- for_ 0 6 (v6_zeros, v6_zeros, v6_zeros, v6_zeros, v6_zeros, v6_zeros) (fun i st =>
    let ' (c0, c1, c2, c3, c4, c5) := st in
    x <- mget self i 0 ;; c0 <- aset c0 i x ;;
    x <- mget self i 1 ;; c1 <- aset c1 i x ;;
    x <- mget self i 2 ;; c2 <- aset c2 i x ;;
    x <- mget self i 3 ;; c3 <- aset c3 i x ;;
    x <- mget self i 4 ;; c4 <- aset c4 i x ;;
    x <- mget self i 5 ;; c5 <- aset c5 i x ;;
    Ok (c0, c1, c2, c3, c4, c5)) ;;
  Ok [| c0; c1; c2; c3; c4; c5 |].

(** matrix6x6.rs:1657-1669, [new_from_vecs] *)
Definition m66_new_from_vecs {T} `{Num T} (cols : arr (V6 T) 6) : outcome (M66 T) :=
  for_ 0 6 m66_zeros (fun i result =>
    x <- aget cols.[0] i ;; result <- mset result i 0 x ;;
    x <- aget cols.[1] i ;; result <- mset result i 1 x ;;
    x <- aget cols.[2] i ;; result <- mset result i 2 x ;;
    x <- aget cols.[3] i ;; result <- mset result i 3 x ;;
    x <- aget cols.[4] i ;; result <- mset result i 4 x ;;
    x <- aget cols.[5] i ;; result <- mset result i 5 x ;;
    Ok result).
