(** * Ctor: constructors, conversions and indexing

    The newtypes [Vn<T>([T; n])] and [Mnn<T>([[T; n]; n])] are read as the array
    they wrap (Base.v), so wrapping and unwrapping are the identity here; the
    definitions record which function of the source is read how. *)

From Coq Require Import List Arith.
From Verif Require Import Base.

Section Ctor.
Context {T : Type}.

(** [Vn::new]: vector2.rs:48-50, vector3.rs:48-50, vector4.rs:49-51,
    vector5.rs:48-50, vector6.rs:49-51; [Mnn::new]: matrix2x2.rs:49-51,
    matrix3x3.rs:51-53, matrix4x4.rs:50-52, matrix5x5.rs:50-52, matrix6x6.rs:51-53;
    [From<[T; n]>]: vector2.rs:238-242, vector3.rs:277-281, vector4.rs:244-248,
    vector5.rs:229-233, vector6.rs:285-289, and for matrices matrix2x2.rs:473-477,
    matrix3x3.rs:583-587, matrix4x4.rs:772-776, matrix5x5.rs:1033-1037,
    matrix6x6.rs:1864-1868. *)
Definition new {n} (input : arr T n) : arr T n := input.

(** [Deref] / [DerefMut], the wrapped array: vector2.rs:223-236,
    vector3.rs:262-275, vector4.rs:229-242, vector5.rs:214-227, vector6.rs:270-283,
    matrix2x2.rs:458-471, matrix3x3.rs:568-581, matrix4x4.rs:757-770,
    matrix5x5.rs:1018-1031, matrix6x6.rs:1849-1862. *)
Definition deref {n} (self : arr T n) : arr T n := self.

(** vector2.rs:53-55, [new_from] *)
Definition v2_new_from (a b : T) : V2 T := new (n:=2) [|a; b|].
(** vector3.rs:53-55, [new_from] *)
Definition v3_new_from (a b c : T) : V3 T := new (n:=3) [|a; b; c|].
(** vector4.rs:54-56, [new_from] *)
Definition v4_new_from (a b c d : T) : V4 T := new (n:=4) [|a; b; c; d|].
(** vector5.rs:53-55, [new_from] *)
Definition v5_new_from (num1 num2 num3 num4 num5 : T) : V5 T :=
  new (n:=5) [|num1; num2; num3; num4; num5|].
(** vector6.rs:54-56, [new_from] *)
Definition v6_new_from (num1 num2 num3 num4 num5 num6 : T) : V6 T :=
  new (n:=6) [|num1; num2; num3; num4; num5; num6|].
(** [Index<usize>], [m[i]], the i-th row: matrix2x2.rs:482-488,
    matrix3x3.rs:592-598, matrix4x4.rs:799-805, matrix5x5.rs:1060-1066,
    matrix6x6.rs:1891-1897 ([V] indexing goes through [Deref] to the array). *)
Definition index_row {n} (self : mat T n) (index : nat) : outcome (arr T n) :=
  aget (self : arr (arr T n) n) index.

End Ctor.
