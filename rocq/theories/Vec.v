(** * Vec: V2 .. V6 (vector2.rs .. vector6.rs)

    Arithmetic of the fixed-size vectors.
    Straight-line bodies transcribed from the Rust text keeping every operation
    and its association; simplifications: newtypes are erased, references and
    [Copy] are ignored. *)

From Verif Require Import Base Scalar.
Open Scope sc_scope.


(** ** V2 *)

(** vector2.rs:214-216, [impl<T: Num + Copy> Zero for V2<T>] (also [zeros()]) *)
Definition v2_zeros {T} `{Num T} : V2 T :=
  [|zero; zero|].

(** vector2.rs:65-68, [impl<T: Num + Copy> V2<T>] *)
Definition v2_ones {T} `{Num T} : V2 T :=
  let one := one in
  [|one; one|].

(** vector2.rs:199-201, [impl<T: Num + Copy> Add for V2<T>] *)
Definition v2_add {T} `{Num T} (self : V2 T) (rhs : V2 T) : V2 T :=
  [|self.[0] + rhs.[0]; self.[1] + rhs.[1]|].

(** vector2.rs:182-184, [impl<T: Num + Copy> Sub for V2<T>] *)
Definition v2_sub {T} `{Num T} (self : V2 T) (rhs : V2 T) : V2 T :=
  [|self.[0] - rhs.[0]; self.[1] - rhs.[1]|].

(** vector2.rs:87-89, [impl<T: Num + Copy + Signed> Neg for V2<T>] *)
Definition v2_neg {T} `{Signed T} (self : V2 T) : V2 T :=
  [|-self.[0]; -self.[1]|].

(** vector2.rs:118-120, [impl<T: Num + Copy> Mul for V2<T>] *)
Definition v2_dot {T} `{Num T} (self : V2 T) (rhs : V2 T) : T :=
  self.[0] * rhs.[0] + self.[1] * rhs.[1].

(** vector2.rs:129-131, [impl<T: Num + Copy> Mul<T> for V2<T>] *)
Definition v2_scale {T} `{Num T} (self : V2 T) (rhs : T) : V2 T :=
  [|self.[0] * rhs; self.[1] * rhs|].

(** vector2.rs:139-141, [impl<T: Num + Copy> Div<T> for V2<T>] *)
Definition v2_div {T} `{Num T} (self : V2 T) (rhs : T) : V2 T :=
  [|self.[0] / rhs; self.[1] / rhs|].

(** vector2.rs:159-161, [impl Mul<V2<f32>> for f32] (f32 only in the source) *)
Definition v2_lscale {T} `{Num T} (self : T) (rhs : V2 T) : V2 T :=
  [|self * rhs.[0]; self * rhs.[1]|].

(** vector2.rs:169-174, [impl<T: Num + Copy> Mul<M22<T>> for V2<T>] *)
Definition v2_mul_m {T} `{Num T} (self : V2 T) (rhs : M22 T) : V2 T :=
  [|
  self.[0] * rhs.[0].[0] + self.[1] * rhs.[1].[0];
  self.[0] * rhs.[0].[1] + self.[1] * rhs.[1].[1]|].

(** vector2.rs:94-96, [impl<T: Float> V2<T>] *)
Definition v2_norm2 {T} `{Num T} `{Float T} (self : V2 T) : T :=
  fsqrt (self.[0] * self.[0] + self.[1] * self.[1]).

(** vector2.rs:206-208, [+=] : [*self = *self + other] *)
Definition v2_add_assign {T} `{Num T} (self other : V2 T) : V2 T :=
  v2_add self other.

(** vector2.rs:190-192, [-=] : [*self = *self - other] *)
Definition v2_sub_assign {T} `{Num T} (self other : V2 T) : V2 T :=
  v2_sub self other.

(** vector2.rs:218-220, [is_zero] (derived [PartialEq]) *)
Definition v2_is_zero {T} `{Num T} (self : V2 T) : bool :=
  aeqb eqb self v2_zeros.

(** vector2.rs:99-111, [normalize]; [Err(VectorErrors::Norm2IsZero)] is [Ok None],
    [Ok(result)] is [Ok (Some result)], the outer [outcome] records panics of the
    indexing in the loop. *)
Definition v2_normalize {T} `{Num T} `{Float T} (self : V2 T) : outcome (option (V2 T)) :=
  let n := v2_norm2 self in
  if negb (n =? zero) then
    result <- for_ 0 2 v2_zeros (fun i result =>
      x <- aget self i ;; aset result i (x / n)) ;;
    Ok (Some result)
  else Ok None.

(** ** V3 *)

(** vector3.rs:253-255, [impl<T: Num + Copy> Zero for V3<T>] (also [zeros()]) *)
Definition v3_zeros {T} `{Num T} : V3 T :=
  [|zero; zero; zero|].

(** vector3.rs:66-69, [impl<T: Num + Copy> V3<T>] *)
Definition v3_ones {T} `{Num T} : V3 T :=
  let one := one in
  [|one; one; one|].

(** vector3.rs:237-239, [impl<T: Num + Copy> Add for V3<T>] *)
Definition v3_add {T} `{Num T} (self : V3 T) (rhs : V3 T) : V3 T :=
  [|self.[0] + rhs.[0]; self.[1] + rhs.[1]; self.[2] + rhs.[2]|].

(** vector3.rs:219-221, [impl<T: Num + Copy> Sub for V3<T>] *)
Definition v3_sub {T} `{Num T} (self : V3 T) (rhs : V3 T) : V3 T :=
  [|self.[0] - rhs.[0]; self.[1] - rhs.[1]; self.[2] - rhs.[2]|].

(** vector3.rs:119-121, [impl<T: Num + Copy + Signed> Neg for V3<T>] *)
Definition v3_neg {T} `{Signed T} (self : V3 T) : V3 T :=
  [|-self.[0]; -self.[1]; -self.[2]|].

(** vector3.rs:196-198, [impl<T: Num + Copy> Mul for V3<T>] *)
Definition v3_dot {T} `{Num T} (self : V3 T) (rhs : V3 T) : T :=
  self.[0] * rhs.[0] + self.[1] * rhs.[1] + self.[2] * rhs.[2].

(** vector3.rs:156-158, [impl<T: Num + Copy> Mul<T> for V3<T>] *)
Definition v3_scale {T} `{Num T} (self : V3 T) (rhs : T) : V3 T :=
  [|self.[0] * rhs; self.[1] * rhs; self.[2] * rhs|].

(** vector3.rs:166-168, [impl<T: Num + Copy> Div<T> for V3<T>] *)
Definition v3_div {T} `{Num T} (self : V3 T) (rhs : T) : V3 T :=
  [|self.[0] / rhs; self.[1] / rhs; self.[2] / rhs|].

(** vector3.rs:176-178, [impl Mul<V3<f32>> for f32] (f32 only in the source; the f64 impl, lines 182-189, has the same body) *)
Definition v3_lscale {T} `{Num T} (self : T) (rhs : V3 T) : V3 T :=
  [|rhs.[0] * self; rhs.[1] * self; rhs.[2] * self|].

(** vector3.rs:206-211, [impl<T: Num + Copy> Mul<M33<T>> for V3<T>] *)
Definition v3_mul_m {T} `{Num T} (self : V3 T) (rhs : M33 T) : V3 T :=
  [|
  rhs.[0].[0] * self.[0] + rhs.[0].[1] * self.[1] + rhs.[0].[2] * self.[2];
  rhs.[1].[0] * self.[0] + rhs.[1].[1] * self.[1] + rhs.[1].[2] * self.[2];
  rhs.[2].[0] * self.[0] + rhs.[2].[1] * self.[1] + rhs.[2].[2] * self.[2]|].

(** vector3.rs:127-129, [impl<T: Float> V3<T>] *)
Definition v3_norm2 {T} `{Num T} `{Float T} (self : V3 T) : T :=
  fsqrt (self.[0] * self.[0] + self.[1] * self.[1] + self.[2] * self.[2]).

(** vector3.rs:73-79, [impl<T: Num + Copy> V3<T>] *)
Definition v3_cross {T} `{Num T} (self : V3 T) (rhs : V3 T) : V3 T :=
  [|
  self.[1] * rhs.[2] - self.[2] * rhs.[1];
  self.[2] * rhs.[0] - self.[0] * rhs.[2];
  self.[0] * rhs.[1] - self.[1] * rhs.[0]|].

(** vector3.rs:82-86, [impl<T: Num + Copy> V3<T>] *)
Definition v3_x_axis {T} `{Num T} : V3 T :=
  let one := one in
  let zero := zero in
  [|one; zero; zero|].

(** vector3.rs:89-93, [impl<T: Num + Copy> V3<T>] *)
Definition v3_y_axis {T} `{Num T} : V3 T :=
  let one := one in
  let zero := zero in
  [|zero; one; zero|].

(** vector3.rs:96-100, [impl<T: Num + Copy> V3<T>] *)
Definition v3_z_axis {T} `{Num T} : V3 T :=
  let one := one in
  let zero := zero in
  [|zero; zero; one|].

(** vector3.rs:245-247, [+=] : [*self = *self + other] *)
Definition v3_add_assign {T} `{Num T} (self other : V3 T) : V3 T :=
  v3_add self other.

(** vector3.rs:227-229, [-=] : [*self = *self - other] *)
Definition v3_sub_assign {T} `{Num T} (self other : V3 T) : V3 T :=
  v3_sub self other.

(** vector3.rs:257-259, [is_zero] (derived [PartialEq]) *)
Definition v3_is_zero {T} `{Num T} (self : V3 T) : bool :=
  aeqb eqb self v3_zeros.

(** vector3.rs:132-144, [normalize]; [Err(VectorErrors::Norm2IsZero)] is [Ok None],
    [Ok(result)] is [Ok (Some result)], the outer [outcome] records panics of the
    indexing in the loop. *)
Definition v3_normalize {T} `{Num T} `{Float T} (self : V3 T) : outcome (option (V3 T)) :=
  let n := v3_norm2 self in
  if negb (n =? zero) then
    result <- for_ 0 3 v3_zeros (fun i result =>
      x <- aget self i ;; aset result i (x / n)) ;;
    Ok (Some result)
  else Ok None.

(** ** V4 *)

(** vector4.rs:220-222, [impl<T: Num + Copy> Zero for V4<T>] (also [zeros()]) *)
Definition v4_zeros {T} `{Num T} : V4 T :=
  amake 4 zero.

(** vector4.rs:66-69, [impl<T: Num + Copy> V4<T>] *)
Definition v4_ones {T} `{Num T} : V4 T :=
  let one := one in
  [|one; one; one; one|].

(** vector4.rs:205-207, [impl<T: Num + Copy> Add for V4<T>] *)
Definition v4_add {T} `{Num T} (self : V4 T) (rhs : V4 T) : V4 T :=
  [|self.[0] + rhs.[0]; self.[1] + rhs.[1]; self.[2] + rhs.[2]; self.[3] + rhs.[3]|].

(** vector4.rs:188-190, [impl<T: Num + Copy> Sub for V4<T>] *)
Definition v4_sub {T} `{Num T} (self : V4 T) (rhs : V4 T) : V4 T :=
  [|self.[0] - rhs.[0]; self.[1] - rhs.[1]; self.[2] - rhs.[2]; self.[3] - rhs.[3]|].

(** vector4.rs:99-101, [impl<T: Num + Copy + Signed> Neg for V4<T>] *)
Definition v4_neg {T} `{Signed T} (self : V4 T) : V4 T :=
  [|-self.[0]; -self.[1]; -self.[2]; -self.[3]|].

(** vector4.rs:132-134, [impl<T: Num + Copy> Mul for V4<T>] *)
Definition v4_dot {T} `{Num T} (self : V4 T) (rhs : V4 T) : T :=
  self.[0] * rhs.[0] + self.[1] * rhs.[1] + self.[2] * rhs.[2] + self.[3] * rhs.[3].

(** vector4.rs:142-144, [impl<T: Num + Copy> Mul<T> for V4<T>] *)
Definition v4_scale {T} `{Num T} (self : V4 T) (rhs : T) : V4 T :=
  [|self.[0] * rhs; self.[1] * rhs; self.[2] * rhs; self.[3] * rhs|].

(** vector4.rs:153-155, [impl<T: Num + Copy> Div<T> for V4<T>] *)
Definition v4_div {T} `{Num T} (self : V4 T) (rhs : T) : V4 T :=
  [|self.[0] / rhs; self.[1] / rhs; self.[2] / rhs; self.[3] / rhs|].

(** vector4.rs:163-165, [impl Mul<V4<f32>> for f32] (f32 only in the source) *)
Definition v4_lscale {T} `{Num T} (self : T) (rhs : V4 T) : V4 T :=
  [|self * rhs.[0]; self * rhs.[1]; self * rhs.[2]; self * rhs.[3]|].

(** vector4.rs:173-180, [impl<T: Num + Copy> Mul<M44<T>> for V4<T>] *)
Definition v4_mul_m {T} `{Num T} (self : V4 T) (rhs : M44 T) : V4 T :=
  [|
  self.[0] * rhs.[0].[0] + self.[1] * rhs.[1].[0] + self.[2] * rhs.[2].[0] + self.[3] * rhs.[3].[0];
  self.[0] * rhs.[0].[1] + self.[1] * rhs.[1].[1] + self.[2] * rhs.[2].[1] + self.[3] * rhs.[3].[1];
  self.[0] * rhs.[0].[2] + self.[1] * rhs.[1].[2] + self.[2] * rhs.[2].[2] + self.[3] * rhs.[3].[2];
  self.[0] * rhs.[0].[3] + self.[1] * rhs.[1].[3] + self.[2] * rhs.[2].[3] + self.[3] * rhs.[3].[3]|].

(** vector4.rs:107-109, [impl<T: Float> V4<T>] *)
Definition v4_norm2 {T} `{Num T} `{Float T} (self : V4 T) : T :=
  fsqrt (self.[0] * self.[0] + self.[1] * self.[1] + self.[2] * self.[2] + self.[3] * self.[3]).

(** vector4.rs:213-215, [+=] : [*self = *self + other] *)
Definition v4_add_assign {T} `{Num T} (self other : V4 T) : V4 T :=
  v4_add self other.

(** vector4.rs:195-197, [-=] : [*self = *self - other] *)
Definition v4_sub_assign {T} `{Num T} (self other : V4 T) : V4 T :=
  v4_sub self other.

(** vector4.rs:224-226, [is_zero] (derived [PartialEq]) *)
Definition v4_is_zero {T} `{Num T} (self : V4 T) : bool :=
  aeqb eqb self v4_zeros.

(** vector4.rs:112-124, [normalize]; [Err(VectorErrors::Norm2IsZero)] is [Ok None],
    [Ok(result)] is [Ok (Some result)], the outer [outcome] records panics of the
    indexing in the loop. *)
Definition v4_normalize {T} `{Num T} `{Float T} (self : V4 T) : outcome (option (V4 T)) :=
  let n := v4_norm2 self in
  if negb (n =? zero) then
    result <- for_ 0 4 v4_zeros (fun i result =>
      x <- aget self i ;; aset result i (x / n)) ;;
    Ok (Some result)
  else Ok None.

(** ** V5 *)

(** vector5.rs:205-207, [impl<T: Num + Copy> Zero for V5<T>] (also [zeros()]) *)
Definition v5_zeros {T} `{Num T} : V5 T :=
  amake 5 zero.

(** vector5.rs:65-68, [impl<T: Num + Copy> V5<T>] *)
Definition v5_ones {T} `{Num T} : V5 T :=
  let one := one in
  [|one; one; one; one; one|].

(** vector5.rs:191-193, [impl<T: Num + Copy> Add for V5<T>] *)
Definition v5_add {T} `{Num T} (self : V5 T) (rhs : V5 T) : V5 T :=
  [|self.[0] + rhs.[0]; self.[1] + rhs.[1]; self.[2] + rhs.[2]; self.[3] + rhs.[3]; self.[4] + rhs.[4]|].

(** vector5.rs:174-176, [impl<T: Num + Copy> Sub for V5<T>] *)
Definition v5_sub {T} `{Num T} (self : V5 T) (rhs : V5 T) : V5 T :=
  [|self.[0] - rhs.[0]; self.[1] - rhs.[1]; self.[2] - rhs.[2]; self.[3] - rhs.[3]; self.[4] - rhs.[4]|].

(** vector5.rs:87-89, [impl<T: Num + Copy + Signed> Neg for V5<T>] *)
Definition v5_neg {T} `{Signed T} (self : V5 T) : V5 T :=
  [|-self.[0]; -self.[1]; -self.[2]; -self.[3]; -self.[4]|].

(** vector5.rs:120-122, [impl<T: Num + Copy> Mul for V5<T>] *)
Definition v5_dot {T} `{Num T} (self : V5 T) (rhs : V5 T) : T :=
  self.[0] * rhs.[0] + self.[1] * rhs.[1] + self.[2] * rhs.[2] + self.[3] * rhs.[3] + self.[4] * rhs.[4].

(** vector5.rs:130-132, [impl<T: Num + Copy> Mul<T> for V5<T>] *)
Definition v5_scale {T} `{Num T} (self : V5 T) (rhs : T) : V5 T :=
  [|self.[0] * rhs; self.[1] * rhs; self.[2] * rhs; self.[3] * rhs; self.[4] * rhs|].

(** vector5.rs:139-141, [impl<T: Num + Copy> Div<T> for V5<T>] *)
Definition v5_div {T} `{Num T} (self : V5 T) (rhs : T) : V5 T :=
  [|self.[0] / rhs; self.[1] / rhs; self.[2] / rhs; self.[3] / rhs; self.[4] / rhs|].

(** vector5.rs:148-150, [impl Mul<V5<f32>> for f32] (f32 only in the source) *)
Definition v5_lscale {T} `{Num T} (self : T) (rhs : V5 T) : V5 T :=
  [|self * rhs.[0]; self * rhs.[1]; self * rhs.[2]; self * rhs.[3]; self * rhs.[4]|].

(** vector5.rs:158-166, [impl<T: Num + Copy> Mul<M55<T>> for V5<T>] *)
Definition v5_mul_m {T} `{Num T} (self : V5 T) (rhs : M55 T) : V5 T :=
  [|
  rhs.[0].[0] * self.[0] + rhs.[1].[0] * self.[1] + rhs.[2].[0] * self.[2] + rhs.[3].[0] * self.[3] + rhs.[4].[0] * self.[4];
  rhs.[0].[1] * self.[0] + rhs.[1].[1] * self.[1] + rhs.[2].[1] * self.[2] + rhs.[3].[1] * self.[3] + rhs.[4].[1] * self.[4];
  rhs.[0].[2] * self.[0] + rhs.[1].[2] * self.[1] + rhs.[2].[2] * self.[2] + rhs.[3].[2] * self.[3] + rhs.[4].[2] * self.[4];
  rhs.[0].[3] * self.[0] + rhs.[1].[3] * self.[1] + rhs.[2].[3] * self.[2] + rhs.[3].[3] * self.[3] + rhs.[4].[3] * self.[4];
  rhs.[0].[4] * self.[0] + rhs.[1].[4] * self.[1] + rhs.[2].[4] * self.[2] + rhs.[3].[4] * self.[3] + rhs.[4].[4] * self.[4]|].

(** vector5.rs:95-97, [impl<T: Float> V5<T>] *)
Definition v5_norm2 {T} `{Num T} `{Float T} (self : V5 T) : T :=
  fsqrt (self.[0] * self.[0] + self.[1] * self.[1] + self.[2] * self.[2] + self.[3] * self.[3] + self.[4] * self.[4]).

(** vector5.rs:199-201, [+=] : [*self = *self + other] *)
Definition v5_add_assign {T} `{Num T} (self other : V5 T) : V5 T :=
  v5_add self other.

(** vector5.rs:182-184, [-=] : [*self = *self - other] *)
Definition v5_sub_assign {T} `{Num T} (self other : V5 T) : V5 T :=
  v5_sub self other.

(** vector5.rs:209-211, [is_zero] (derived [PartialEq]) *)
Definition v5_is_zero {T} `{Num T} (self : V5 T) : bool :=
  aeqb eqb self v5_zeros.

(** vector5.rs:100-112, [normalize]; [Err(VectorErrors::Norm2IsZero)] is [Ok None],
    [Ok(result)] is [Ok (Some result)], the outer [outcome] records panics of the
    indexing in the loop. *)
Definition v5_normalize {T} `{Num T} `{Float T} (self : V5 T) : outcome (option (V5 T)) :=
  let n := v5_norm2 self in
  if negb (n =? zero) then
    result <- for_ 0 5 v5_zeros (fun i result =>
      x <- aget self i ;; aset result i (x / n)) ;;
    Ok (Some result)
  else Ok None.

(** ** V6 *)

(** vector6.rs:261-263, [impl<T: Num + Copy> Zero for V6<T>] (also [zeros()]) *)
Definition v6_zeros {T} `{Num T} : V6 T :=
  amake 6 zero.

(** vector6.rs:66-69, [impl<T: Num + Copy> V6<T>] *)
Definition v6_ones {T} `{Num T} : V6 T :=
  let one := one in
  [|one; one; one; one; one; one|].

(** vector6.rs:245-248, [impl<T: Num + Copy> Add for V6<T>] *)
Definition v6_add {T} `{Num T} (self : V6 T) (rhs : V6 T) : V6 T :=
  [|self.[0] + rhs.[0]; self.[1] + rhs.[1]; self.[2] + rhs.[2];
  self.[3] + rhs.[3]; self.[4] + rhs.[4]; self.[5] + rhs.[5]|].

(** vector6.rs:226-229, [impl<T: Num + Copy> Sub for V6<T>] *)
Definition v6_sub {T} `{Num T} (self : V6 T) (rhs : V6 T) : V6 T :=
  [|self.[0] - rhs.[0]; self.[1] - rhs.[1]; self.[2] - rhs.[2];
  self.[3] - rhs.[3]; self.[4] - rhs.[4]; self.[5] - rhs.[5]|].

(** vector6.rs:88-90, [impl<T: Num + Copy + Signed> Neg for V6<T>] *)
Definition v6_neg {T} `{Signed T} (self : V6 T) : V6 T :=
  [|-self.[0]; -self.[1]; -self.[2]; -self.[3]; -self.[4]; -self.[5]|].

(** vector6.rs:155-158, [impl<T: Num + Copy> Mul for V6<T>] *)
Definition v6_dot {T} `{Num T} (self : V6 T) (rhs : V6 T) : T :=
  self.[0] * rhs.[0] + self.[1] * rhs.[1] + self.[2] * rhs.[2] + self.[3] * rhs.[3]
  + self.[4] * rhs.[4] + self.[5] * rhs.[5].

(** vector6.rs:122-125, [impl<T: Num + Copy> Mul<T> for V6<T>] *)
Definition v6_scale {T} `{Num T} (self : V6 T) (rhs : T) : V6 T :=
  [|self.[0] * rhs; self.[1] * rhs; self.[2] * rhs;
  self.[3] * rhs; self.[4] * rhs; self.[5] * rhs|].

(** vector6.rs:133-136, [impl<T: Num + Copy> Div<T> for V6<T>] *)
Definition v6_div {T} `{Num T} (self : V6 T) (rhs : T) : V6 T :=
  [|self.[0] / rhs; self.[1] / rhs; self.[2] / rhs;
  self.[3] / rhs; self.[4] / rhs; self.[5] / rhs|].

(** vector6.rs:144-147, [impl Mul<V6<f32>> for f32] (f32 only in the source) *)
Definition v6_lscale {T} `{Num T} (self : T) (rhs : V6 T) : V6 T :=
  [|self * rhs.[0]; self * rhs.[1]; self * rhs.[2];
  self * rhs.[3]; self * rhs.[4]; self * rhs.[5]|].

(** vector6.rs:165-218, [impl<T: Num + Copy> Mul<M66<T>> for V6<T>] *)
Definition v6_mul_m {T} `{Num T} (self : V6 T) (rhs : M66 T) : V6 T :=
  let a_00 := rhs.[0].[0] in
  let a_01 := rhs.[0].[1] in
  let a_02 := rhs.[0].[2] in
  let a_03 := rhs.[0].[3] in
  let a_04 := rhs.[0].[4] in
  let a_05 := rhs.[0].[5] in
  let a_10 := rhs.[1].[0] in
  let a_11 := rhs.[1].[1] in
  let a_12 := rhs.[1].[2] in
  let a_13 := rhs.[1].[3] in
  let a_14 := rhs.[1].[4] in
  let a_15 := rhs.[1].[5] in
  let a_20 := rhs.[2].[0] in
  let a_21 := rhs.[2].[1] in
  let a_22 := rhs.[2].[2] in
  let a_23 := rhs.[2].[3] in
  let a_24 := rhs.[2].[4] in
  let a_25 := rhs.[2].[5] in
  let a_30 := rhs.[3].[0] in
  let a_31 := rhs.[3].[1] in
  let a_32 := rhs.[3].[2] in
  let a_33 := rhs.[3].[3] in
  let a_34 := rhs.[3].[4] in
  let a_35 := rhs.[3].[5] in
  let a_40 := rhs.[4].[0] in
  let a_41 := rhs.[4].[1] in
  let a_42 := rhs.[4].[2] in
  let a_43 := rhs.[4].[3] in
  let a_44 := rhs.[4].[4] in
  let a_45 := rhs.[4].[5] in
  let a_50 := rhs.[5].[0] in
  let a_51 := rhs.[5].[1] in
  let a_52 := rhs.[5].[2] in
  let a_53 := rhs.[5].[3] in
  let a_54 := rhs.[5].[4] in
  let a_55 := rhs.[5].[5] in
  let v0 := self.[0] in
  let v1 := self.[1] in
  let v2 := self.[2] in
  let v3 := self.[3] in
  let v4 := self.[4] in
  let v5 := self.[5] in
  [|
  a_00 * v0 + a_10 * v1 + a_20 * v2 + a_30 * v3 + a_40 * v4 + a_50 * v5;
  a_01 * v0 + a_11 * v1 + a_21 * v2 + a_31 * v3 + a_41 * v4 + a_51 * v5;
  a_02 * v0 + a_12 * v1 + a_22 * v2 + a_32 * v3 + a_42 * v4 + a_52 * v5;
  a_03 * v0 + a_13 * v1 + a_23 * v2 + a_33 * v3 + a_43 * v4 + a_53 * v5;
  a_04 * v0 + a_14 * v1 + a_24 * v2 + a_34 * v3 + a_44 * v4 + a_54 * v5;
  a_05 * v0 + a_15 * v1 + a_25 * v2 + a_35 * v3 + a_45 * v4 + a_55 * v5|].

(** vector6.rs:96-99, [impl<T: Float> V6<T>] *)
Definition v6_norm2 {T} `{Num T} `{Float T} (self : V6 T) : T :=
  fsqrt (self.[0] * self.[0] + self.[1] * self.[1] + self.[2] * self.[2]
  + self.[3] * self.[3] + self.[4] * self.[4] + self.[5] * self.[5]).

(** vector6.rs:254-256, [+=] : [*self = *self + other] *)
Definition v6_add_assign {T} `{Num T} (self other : V6 T) : V6 T :=
  v6_add self other.

(** vector6.rs:235-237, [-=] : [*self = *self - other] *)
Definition v6_sub_assign {T} `{Num T} (self other : V6 T) : V6 T :=
  v6_sub self other.

(** vector6.rs:265-267, [is_zero] (derived [PartialEq]) *)
Definition v6_is_zero {T} `{Num T} (self : V6 T) : bool :=
  aeqb eqb self v6_zeros.

(** vector6.rs:102-114, [normalize]; [Err(VectorErrors::Norm2IsZero)] is [Ok None],
    [Ok(result)] is [Ok (Some result)], the outer [outcome] records panics of the
    indexing in the loop. *)
Definition v6_normalize {T} `{Num T} `{Float T} (self : V6 T) : outcome (option (V6 T)) :=
  let n := v6_norm2 self in
  if negb (n =? zero) then
    result <- for_ 0 6 v6_zeros (fun i result =>
      x <- aget self i ;; aset result i (x / n)) ;;
    Ok (Some result)
  else Ok None.
