(** * Transf: transformations.rs, and the parts of utils.rs and quaternion.rs
    that depend on it *)

From Coq Require Import List Bool.
From Verif Require Import Base Scalar Vec Slices Mat2 Mat3 Mat4 Mat6 MatOps Quat.
Import ListNotations.
Open Scope sc_scope.

(** transformations.rs:47-58, [EulerSeq] *)
Inductive EulerSeq := XYX | XYZ | XZX | XZY | YXY | YXZ | YZX | YZY | ZXY | ZXZ.

Section Transf.
Context {T : Type} {nT : Num T} {sT : Signed T} {oT : POrd T} {fT : Float T}.
Notation Q := (Quaternion T).

(** transformations.rs:67-71, [rot2] *)
Definition rot2 (angle : T) : M22 T :=
  let ' (s, c) := sin_cos angle in
  [| [| c; -s |]; [| s; c |] |].

(** transformations.rs:79-86, [rotx] *)
Definition rotx (angle : T) : M33 T :=
  let one := one in
  let zero := zero in
  let ' (s, c) := sin_cos angle in
  [| [| one; zero; zero |];
     [| zero; c; -s |];
     [| zero; s; c |] |].

(** transformations.rs:94-101, [roty] *)
Definition roty (angle : T) : M33 T :=
  let one := one in
  let zero := zero in
  let ' (s, c) := sin_cos angle in
  [| [| c; zero; s |];
     [| zero; one; zero |];
     [| -s; zero; c |] |].

(** transformations.rs:109-116, [rotz] *)
Definition rotz (angle : T) : M33 T :=
  let one := one in
  let zero := zero in
  let ' (s, c) := sin_cos angle in
  [| [| c; -s; zero |];
     [| s; c; zero |];
     [| zero; zero; one |] |].

(** transformations.rs:135-149, [euler_to_rotation] *)
Definition euler_to_rotation (yay pitch roll : T) (s : option EulerSeq) : M33 T :=
  match s with
  | Some XYX => m33_mul (m33_mul (rotx yay) (roty pitch)) (rotx roll)
  | Some XYZ => m33_mul (m33_mul (rotx yay) (roty pitch)) (rotz roll)
  | Some XZX => m33_mul (m33_mul (rotx yay) (rotz pitch)) (rotx roll)
  | Some XZY => m33_mul (m33_mul (rotx yay) (rotz pitch)) (roty roll)
  | Some YXY => m33_mul (m33_mul (roty yay) (rotx pitch)) (roty roll)
  | Some YXZ => m33_mul (m33_mul (roty yay) (rotx pitch)) (rotz roll)
  | Some YZX => m33_mul (m33_mul (rotx yay) (roty pitch)) (rotz roll)
  | Some YZY => m33_mul (m33_mul (roty yay) (rotz pitch)) (roty roll)
  | Some ZXY => m33_mul (m33_mul (rotz yay) (rotx pitch)) (roty roll)
  | Some ZXZ => m33_mul (m33_mul (rotz yay) (rotx pitch)) (rotz roll)
  | None => m33_mul (m33_mul (rotz yay) (roty pitch)) (rotx roll)
  end.

(** transformations.rs:163-186, [rotation_to_euler] *)
Definition rotation_to_euler (r : M33 T) : T * T * T :=
  let one := one in
  let pitch := fatan2 (- r.[2].[0]) (fsqrt (r.[0].[0] * r.[0].[0] + r.[1].[0] * r.[1].[0])) in
  if nearly_equal pitch (- one * FRAC_PI_2) epsilon then
    let yay := fatan2 (- r.[1].[2]) (- r.[0].[2]) in
    let roll := zero in
    (yay, pitch, roll)
  else if nearly_equal pitch FRAC_PI_2 epsilon then
    let yay := fatan2 r.[1].[2] r.[0].[2] in
    let roll := zero in
    (yay, pitch, roll)
  else
    let yay := fatan2 r.[1].[0] r.[0].[0] in
    let roll := fatan2 r.[2].[1] r.[2].[2] in
    (yay, pitch, roll).

(** quaternion.rs:533-535, [Quaternion::to_euler_angles] *)
Definition q_to_euler_angles (self : Q) : T * T * T :=
  rotation_to_euler (q_to_rotation self).

(** transformations.rs:198-205, [homogeneous_from_rotation] *)
Definition homogeneous_from_rotation (r : M33 T) (p : V3 T) : M44 T :=
  let zero := zero in
  let one := one in
  [| [| r.[0].[0]; r.[0].[1]; r.[0].[2]; p.[0] |];
     [| r.[1].[0]; r.[1].[1]; r.[1].[2]; p.[1] |];
     [| r.[2].[0]; r.[2].[1]; r.[2].[2]; p.[2] |];
     [| zero; zero; zero; one |] |].

(** transformations.rs:207-213, [se3_from_parts] *)
Definition se3_from_parts (r : M33 T) (p : V3 T) : M44 T :=
  let zero := zero in
  [| [| r.[0].[0]; r.[0].[1]; r.[0].[2]; p.[0] |];
     [| r.[1].[0]; r.[1].[1]; r.[1].[2]; p.[1] |];
     [| r.[2].[0]; r.[2].[1]; r.[2].[2]; p.[2] |];
     [| zero; zero; zero; zero |] |].

(** transformations.rs:215-221, [se3_get_parts] *)
Definition se3_get_parts (se3 : M44 T) : M33 T * V3 T :=
  let skew_omega :=
    [| [| se3.[0].[0]; se3.[0].[1]; se3.[0].[2] |];
       [| se3.[1].[0]; se3.[1].[1]; se3.[1].[2] |];
       [| se3.[2].[0]; se3.[2].[1]; se3.[2].[2] |] |] in
  let v := [| se3.[0].[3]; se3.[1].[3]; se3.[2].[3] |] in
  (skew_omega, v).

(** transformations.rs:233-235, [homogeneous_from_quaternion] *)
Definition homogeneous_from_quaternion (q : Q) (p : V3 T) : M44 T :=
  homogeneous_from_rotation (q_to_rotation q) p.

(** transformations.rs:244-255, [get_parts] *)
Definition get_parts (r : M44 T) : Q * V3 T :=
  let rot :=
    [| [| r.[0].[0]; r.[0].[1]; r.[0].[2] |];
       [| r.[1].[0]; r.[1].[1]; r.[1].[2] |];
       [| r.[2].[0]; r.[2].[1]; r.[2].[2] |] |] in
  let p := [| r.[0].[3]; r.[1].[3]; r.[2].[3] |] in
  let ' (yay, pitch, roll) := rotation_to_euler rot in
  let q := q_from_euler_angles yay pitch roll in
  (q, p).

(** transformations.rs:263-271, [get_parts_raw] *)
Definition get_parts_raw (r : M44 T) : M33 T * V3 T :=
  let rot :=
    [| [| r.[0].[0]; r.[0].[1]; r.[0].[2] |];
       [| r.[1].[0]; r.[1].[1]; r.[1].[2] |];
       [| r.[2].[0]; r.[2].[1]; r.[2].[2] |] |] in
  let p := [| r.[0].[3]; r.[1].[3]; r.[2].[3] |] in
  (rot, p).

(** transformations.rs:278-283, [homogeneous_inverse] *)
Definition homogeneous_inverse (r : M44 T) : M44 T :=
  let ' (rot, p) := get_parts_raw r in
  let rot_new := m33_transpose rot in
  let p_new := m33_mul_v (m33_neg rot_new) p in
  homogeneous_from_rotation rot_new p_new.

(** transformations.rs:292-301, [homogeneous_inverse_transform] *)
Definition homogeneous_inverse_transform (r : M44 T) (p : V3 T) : V3 T :=
  let ' (_, translation) := get_parts r in
  let p_trans := v3_sub p translation in
  let p_new := [| p_trans.[0]; p_trans.[1]; p_trans.[2]; zero |] in
  let result := m44_mul_v (homogeneous_inverse r) p_new in
  [| result.[0]; result.[1]; result.[2] |].

(** transformations.rs:310-315, [skew_from_vec] *)
Definition skew_from_vec (v : V3 T) : M33 T :=
  let zero := zero in
  [| [| zero; - v.[2]; v.[1] |];
     [| v.[2]; zero; - v.[0] |];
     [| - v.[1]; v.[0]; zero |] |].

(** transformations.rs:324-326, [skew_to_vec] *)
Definition skew_to_vec (r : M33 T) : V3 T := [| r.[2].[1]; r.[0].[2]; r.[1].[0] |].

(** transformations.rs:328-332, [skew_scalar] *)
Definition skew_scalar (number : T) : M22 T :=
  let zero := zero in
  [| [| zero; - number |]; [| number; zero |] |].

(** transformations.rs:334-336, [vex_m22] *)
Definition vex_m22 (m : M22 T) : T := m.[1].[0].

(** transformations.rs:339-346, [ksi] *)
Definition ksi (angle x y : T) : M33 T :=
  let zero := zero in
  let one := one in
  let ' (s, c) := sin_cos angle in
  [| [| c; -s; x |];
     [| s; c; y |];
     [| zero; zero; one |] |].

(** transformations.rs:349-354, [skew_from_vec_aug] *)
Definition skew_from_vec_aug (v : V3 T) : M33 T :=
  let zero := zero in
  [| [| zero; - v.[2]; v.[0] |];
     [| v.[2]; zero; v.[1] |];
     [| zero; zero; zero |] |].

(** transformations.rs:365-371, [skew_v6] *)
Definition skew_v6 (v : V6 T) : M44 T :=
  let zero := zero in
  [| [| zero; - v.[5]; v.[4]; v.[0] |];
     [| v.[5]; zero; - v.[3]; v.[1] |];
     [| - v.[4]; v.[3]; zero; v.[2] |];
     [| zero; zero; zero; zero |] |].

(** transformations.rs:382-384, [axis_angle]; panics ([expect]) on zero *)
Definition axis_angle (exp : V3 T) : outcome (V3 T * T) :=
  n <- v3_normalize exp ;; n <- unwrap n ;; Ok (n, v3_norm2 exp).

(** transformations.rs:387-393, [translation_2d] *)
Definition translation_2d (x y : T) : M33 T :=
  let zero := zero in
  let one := one in
  [| [| one; zero; x |];
     [| zero; one; y |];
     [| zero; zero; one |] |].

(** transformations.rs:396-403, [translation_3d] *)
Definition translation_3d (x y z : T) : M44 T :=
  let zero := zero in
  let one := one in
  [| [| one; zero; zero; x |];
     [| zero; one; zero; y |];
     [| zero; zero; one; z |];
     [| zero; zero; zero; one |] |].

(** transformations.rs:408-412, [rotation_from_axis_angle] *)
Definition rotation_from_axis_angle (omega : V3 T) (theta : T) : M33 T :=
  let skew := skew_from_vec omega in
  let ' (sin, cos) := sin_cos theta in
  m33_add (m33_add m33_identity (m33_scale skew sin))
          (m33_scale (m33_mul skew skew) (one - cos)).

(** transformations.rs:423-434, [matrix_exponential]; the outcome is that of
    the inner [axis_angle] *)
Definition matrix_exponential (so3 : M33 T) : outcome (M33 T) :=
  let omega_theta := skew_to_vec so3 in
  let one := one in
  if nearly_zero (v3_norm2 omega_theta) then Ok m33_identity
  else
    aa <- axis_angle omega_theta ;;
    let theta := snd aa in
    let omega := m33_div so3 theta in
    let ' (s, c) := sin_cos theta in
    Ok (m33_add (m33_add m33_identity (m33_scale omega s))
                (m33_scale (m33_mul omega omega) (one - c))).

(** transformations.rs:446-471, [matrix_log] *)
Definition matrix_log (r : M33 T) : M33 T :=
  let one := one in
  let two := one + one in
  let angle := (m33_trace r - one) / two in
  if one <=? angle then m33_zeros
  else if angle <=? - one then
    if negb (nearly_zero (one + r.[2].[2])) then
      let omega := v3_scale [| r.[0].[2]; r.[1].[2]; one + r.[2].[2] |]
                     (one / fsqrt (two * (one + r.[2].[2]))) in
      skew_from_vec (v3_scale omega PI_)
    else if negb (nearly_zero (one + r.[1].[1])) then
      let omega := v3_scale [| r.[0].[1]; one + r.[1].[1]; r.[2].[1] |]
                     (one / fsqrt (two * (one + r.[1].[1]))) in
      skew_from_vec (v3_scale omega PI_)
    else
      let omega := v3_scale [| one + r.[0].[0]; one + r.[1].[0]; r.[2].[0] |]
                     (one / fsqrt (two * (one + r.[0].[0]))) in
      skew_from_vec (v3_scale omega PI_)
  else
    let theta := facos angle in
    m33_scale (m33_sub r (m33_transpose r)) (theta / two / fsin theta).

(** transformations.rs:474-476, [rotation_inverse] *)
Definition rotation_inverse (r : M33 T) : M33 T := m33_transpose r.

(** transformations.rs:486-489, [twist_to_se3] *)
Definition twist_to_se3 (twist : V6 T) : M44 T :=
  let skew := skew_from_vec [| twist.[0]; twist.[1]; twist.[2] |] in
  se3_from_parts skew [| twist.[3]; twist.[4]; twist.[5] |].

(** transformations.rs:499-508, [se3_to_twist] *)
Definition se3_to_twist (se3 : M44 T) : V6 T :=
  [| se3.[2].[1]; se3.[0].[2]; se3.[1].[0]; se3.[0].[3]; se3.[1].[3]; se3.[2].[3] |].

(** transformations.rs:518-527, [adjoint] *)
Definition adjoint (transform : M44 T) : outcome (M66 T) :=
  let result := m66_zeros in
  let ' (r, p) := get_parts_raw transform in
  let skew := skew_from_vec p in
  let transform_p := m33_mul skew r in
  result <- m66_copy_elements_from result r 1 ;;
  result <- m66_copy_elements_from result r 4 ;;
  m66_copy_elements_from result transform_p 3.

(** transformations.rs:539-542, [screw_to_axis] *)
Definition screw_to_axis (q s : V3 T) (h : T) : V6 T :=
  let v := v3_add (v3_cross q s) (v3_scale s h) in
  [| s.[0]; s.[1]; s.[2]; v.[0]; v.[1]; v.[2] |].

(** transformations.rs:553-562, [axis_angle6]; [exp[0..3]] and [exp[3..6]] are
    subslices *)
Definition axis_angle6 (exp : V6 T) : V6 T * T :=
  let theta := norm2 (firstn 3 (alist exp)) in
  if nearly_zero theta then
    let theta := norm2 (skipn 3 (alist exp)) in
    (v6_div exp theta, theta)
  else (v6_div exp theta, theta).

(** transformations.rs:572-598, [matrix_exponential6] *)
Definition matrix_exponential6 (se3 : M44 T) : outcome (M44 T) :=
  let zero := zero in
  let one := one in
  let ' (skew_omega, v) := se3_get_parts se3 in
  let omega_theta := skew_to_vec skew_omega in
  if nearly_zero (v3_norm2 omega_theta) then
    Ok [| [| one; zero; one; v.[0] |];
          [| zero; one; zero; v.[1] |];
          [| zero; zero; one; v.[2] |];
          [| zero; zero; zero; one |] |]
  else
    aa <- axis_angle omega_theta ;;
    let theta := snd aa in
    let omega := m33_div skew_omega theta in
    mat_exp <- matrix_exponential skew_omega ;;
    let ' (s, c) := sin_cos theta in
    let v_t :=
      v3_div (m33_mul_v
                (m33_add (m33_add (m33_scale m33_identity theta) (m33_scale omega (one - c)))
                         (m33_scale (m33_mul omega omega) (theta - s))) v) theta in
    Ok [| [| mat_exp.[0].[0]; mat_exp.[0].[1]; mat_exp.[0].[2]; v_t.[0] |];
          [| mat_exp.[1].[0]; mat_exp.[1].[1]; mat_exp.[1].[2]; v_t.[1] |];
          [| mat_exp.[2].[0]; mat_exp.[2].[1]; mat_exp.[2].[2]; v_t.[2] |];
          [| zero; zero; zero; one |] |].

(** transformations.rs:608-631, [matrix_log6] *)
Definition matrix_log6 (t : M44 T) : M44 T :=
  let zero := zero in
  let one := one in
  let two := one + one in
  let ' (r, p) := get_parts_raw t in
  let omega := matrix_log r in
  if m33_is_zero omega then
    [| [| zero; zero; zero; p.[0] |];
       [| zero; zero; zero; p.[1] |];
       [| zero; zero; zero; p.[2] |];
       [| zero; zero; zero; zero |] |]
  else
    let theta := facos ((m33_trace r - one) / two) in
    let cot := one / ftan (theta / two) in
    let v :=
      m33_mul_v
        (m33_add (m33_sub m33_identity (m33_div omega two))
                 (m33_div (m33_scale (m33_mul omega omega) (one / theta - cot / two)) theta)) p in
    [| [| omega.[0].[0]; omega.[0].[1]; omega.[0].[2]; v.[0] |];
       [| omega.[1].[0]; omega.[1].[1]; omega.[1].[2]; v.[1] |];
       [| omega.[2].[0]; omega.[2].[1]; omega.[2].[2]; v.[2] |];
       [| zero; zero; zero; zero |] |].

(** transformations.rs:641-647, [distance_to_manifold] *)
Definition distance_to_manifold (m : M33 T) : T :=
  if zero <? m33_det m then
    m33_norm2 (m33_sub (m33_mul m (m33_transpose m)) m33_identity)
  else infinity.

(** utils.rs:77-80, [is_rotation] *)
Definition is_rotation (r : M33 T) : bool :=
  let r2 := m33_mul r r in
  nearly_equal (m33_det r) one epsilon && nearly_equal (m33_det r2) one epsilon.

(** utils.rs:82-86, [is_rotation_h] *)
Definition is_rotation_h (r : M44 T) : bool :=
  let r2 := m44_mul r r in
  let eps := lit_1em6 in
  nearly_equal (m44_det r) one eps && nearly_equal (m44_det r2) one eps.

End Transf.
