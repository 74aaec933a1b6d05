(** * Quat: quaternion.rs

    [Display] is in Display.v; [to_euler_angles] is in Transf.v (it calls into
    transformations.rs). *)

From Coq Require Import List Bool.
From Verif Require Import Base Scalar Vec Slices Mat3.
Import ListNotations.
Open Scope sc_scope.

(** quaternion.rs:43-51, [struct Quaternion]; the three fields are private in
    the source. *)
Record Quaternion (T : Type) := mkQ { q0 : T; q : V3 T; normalized : bool }.
Arguments mkQ {T}.
Arguments q0 {T}.
Arguments q {T}.
Arguments normalized {T}.

Section Quat.
Context {T : Type} {nT : Num T} {sT : Signed T} {oT : POrd T} {fT : Float T}.
Notation Q := (Quaternion T).

(** quaternion.rs:58-60, [new] *)
Definition q_new (q0 : T) (q : V3 T) : Q := mkQ q0 q false.

(** quaternion.rs:64-66, [new_from]; also [From<[T; 4]>], lines 540-542 *)
Definition q_new_from (q0 q1 q2 q3 : T) : Q := mkQ q0 [| q1; q2; q3 |] false.

(** quaternion.rs:71-73, [dot] *)
Definition q_dot (self rhs : Q) : T :=
  q0 self * q0 rhs + v3_dot (q self) (q rhs).

(** quaternion.rs:76-78, [real] *)
Definition q_real (self : Q) : T := q0 self.

(** quaternion.rs:81-83, [imag] *)
Definition q_imag (self : Q) : V3 T := q self.

(** quaternion.rs:145-148, [one] (via lines 86-88) *)
Definition q_one : Q := mkQ one v3_zeros true.

(** quaternion.rs:133-135, [zero] (via lines 91-93) *)
Definition q_zero : Q := q_new zero v3_zeros.

(** derived [PartialEq] (quaternion.rs:43): all three fields, the flag included *)
Definition q_eqb (a b : Q) : bool :=
  (q0 a =? q0 b) && aeqb eqb (q a) (q b) && Bool.eqb (normalized a) (normalized b).

(** quaternion.rs:137-139, [is_zero] *)
Definition q_is_zero (self : Q) : bool := q_eqb self q_zero.

(** quaternion.rs:96-98, [new_real] *)
Definition q_new_real (q0 : T) : Q := mkQ q0 v3_zeros false.

(** quaternion.rs:101-103, [new_imag] *)
Definition q_new_imag (q : V3 T) : Q := mkQ zero q false.

(** quaternion.rs:106-108, [abs2] *)
Definition q_abs2 (self : Q) : T :=
  q0 self * q0 self + (q self).[0] * (q self).[0] + (q self).[1] * (q self).[1]
  + (q self).[2] * (q self).[2].

(** quaternion.rs:111-113, [new_from_vec] *)
Definition q_new_from_vec (v : V4 T) : Q := mkQ v.[0] [| v.[1]; v.[2]; v.[3] |] false.

(** quaternion.rs:116-128, [to_rotation] *)
Definition q_to_rotation (self : Q) : M33 T :=
  let q0 := q_real self in
  let q := q_imag self in
  let q0_s := q0 * q0 in
  let q1 := q.[0] in let q2 := q.[1] in let q3 := q.[2] in
  let q1_s := q1 * q1 in
  let q2_s := q2 * q2 in
  let q3_s := q3 * q3 in
  let two := one + one in
  [| [| q0_s + q1_s - q2_s - q3_s; two * q1 * q2 - two * q0 * q3; two * q1 * q3 + two * q0 * q2 |];
     [| two * q1 * q2 + two * q0 * q3; q0_s - q1_s + q2_s - q3_s; two * q2 * q3 - two * q0 * q1 |];
     [| two * q1 * q3 - two * q0 * q2; two * q2 * q3 + two * q0 * q1; q0_s - q1_s - q2_s + q3_s |] |].

(** quaternion.rs:155-157, [q + q] *)
Definition q_add (self rhs : Q) : Q :=
  q_new (q0 self + q0 rhs) (v3_add (q self) (q rhs)).

(** quaternion.rs:164-166, [q - q] *)
Definition q_sub (self rhs : Q) : Q :=
  q_new (q0 self - q0 rhs) (v3_sub (q self) (q rhs)).

(** quaternion.rs:174-176, [q / const] *)
Definition q_div_s (self : Q) (rhs : T) : Q :=
  q_new (q0 self / rhs) (v3_div (q self) rhs).

(** quaternion.rs:194-196, [q * q] *)
Definition q_mul (self rhs : Q) : Q :=
  q_new (q0 self * q0 rhs - v3_dot (q self) (q rhs))
        (v3_add (v3_add (v3_scale (q rhs) (q0 self)) (v3_scale (q self) (q0 rhs)))
                (v3_cross (q self) (q rhs))).

(** quaternion.rs:205-210, [q * V3] *)
Definition q_mul_v (self : Q) (rhs : V3 T) : V3 T :=
  let one := one in
  let two := one + one in
  let t := v3_cross (v3_scale (q self) two) rhs in
  v3_add (v3_add rhs (v3_scale t (q0 self))) (v3_cross (q self) t).

(** quaternion.rs:216-218, [q * const] *)
Definition q_scale (self : Q) (rhs : T) : Q :=
  mkQ (q0 self * rhs) (v3_scale (q self) rhs) false.

(** quaternion.rs:225-227, [-q] *)
Definition q_neg (self : Q) : Q := q_new (- q0 self) (v3_neg (q self)).

(** quaternion.rs:233-235, [conj] *)
Definition q_conj (self : Q) : Q := q_new (q0 self) (v3_neg (q self)).

(** quaternion.rs:242-266, [from_rotation] *)
Definition q_from_rotation (rot : M33 T) : Q :=
  let m := m33_transpose rot in
  let zero := zero in
  let one := one in
  let half := one / (one + one) in
  if m.[2].[2] <? zero then
    if m.[1].[1] <? m.[0].[0] then
      let t := one + m.[0].[0] - m.[1].[1] - m.[2].[2] in
      let q := q_new_from (m.[1].[2] - m.[2].[1]) t (m.[0].[1] + m.[1].[0]) (m.[2].[0] + m.[0].[2]) in
      q_div_s (q_scale q half) (fsqrt t)
    else
      let t := one - m.[0].[0] + m.[1].[1] - m.[2].[2] in
      let q := q_new_from (m.[2].[0] - m.[0].[2]) (m.[0].[1] + m.[1].[0]) t (m.[1].[2] + m.[2].[1]) in
      q_div_s (q_scale q half) (fsqrt t)
  else if m.[0].[0] <? - m.[1].[1] then
    let t := one - m.[0].[0] - m.[1].[1] + m.[2].[2] in
    let q := q_new_from (m.[0].[1] - m.[1].[0]) (m.[2].[0] + m.[0].[2]) (m.[1].[2] + m.[2].[1]) t in
    q_div_s (q_scale q half) (fsqrt t)
  else
    let t := one + m.[0].[0] + m.[1].[1] + m.[2].[2] in
    let q := q_new_from t (m.[1].[2] - m.[2].[1]) (m.[2].[0] - m.[0].[2]) (m.[0].[1] - m.[1].[0]) in
    q_div_s (q_scale q half) (fsqrt t).

(** quaternion.rs:271-273, [norm2] *)
Definition q_norm2 (self : Q) : T := fsqrt (q_dot self self).

(** quaternion.rs:276-289, [normalize] *)
Definition q_normalize (self : Q) : option Q :=
  if normalized self then Some self
  else
    let norm_sqr := q_norm2 self in
    if negb (nearly_zero norm_sqr) then
      let result := q_div_s self norm_sqr in
      Some (mkQ (q0 result) (q result) true)
    else None.

(** quaternion.rs:292-294, [abs_imag] *)
Definition q_abs_imag (self : Q) : T := v3_norm2 (q_imag self).

(** quaternion.rs:298-306, [rotation]; panics ([expect]) on a zero vector *)
Definition q_rotation (theta : T) (vector : V3 T) : outcome Q :=
  let one := one in
  let two := one + one in
  r <- v3_normalize vector ;;
  normalized <- unwrap r ;;
  let ' (sin, cos) := sin_cos (theta / two) in
  let q0 := cos in
  let q := v3_scale normalized sin in
  Ok (mkQ q0 q true).

(** quaternion.rs:311-321, [rotation_norm_encoded] *)
Definition q_rotation_norm_encoded (v : V3 T) : Q :=
  let one := one in
  let two := lit_2 in
  let theta := v3_norm2 v in
  if negb (nearly_zero theta) then
    let ' (s, c) := sin_cos (theta / two) in
    mkQ c (v3_scale v (s / theta)) true
  else q_new one v3_zeros.

(** quaternion.rs:325-337, [from_euler_angles] *)
Definition q_from_euler_angles (yay pitch roll : T) : Q :=
  let one := one in
  let two := one + one in
  let ' (roll_sin, roll_cos) := sin_cos (roll / two) in
  let ' (pitch_sin, pitch_cos) := sin_cos (pitch / two) in
  let ' (yay_sin, yay_cos) := sin_cos (yay / two) in
  let q0 := roll_cos * pitch_cos * yay_cos + roll_sin * pitch_sin * yay_sin in
  let q1 := roll_sin * pitch_cos * yay_cos - roll_cos * pitch_sin * yay_sin in
  let q2 := roll_cos * pitch_sin * yay_cos + roll_sin * pitch_cos * yay_sin in
  let q3 := roll_cos * pitch_cos * yay_sin - roll_sin * pitch_sin * yay_cos in
  mkQ q0 [| q1; q2; q3 |] true.

(** quaternion.rs:340-346, [get_angle] *)
Definition q_get_angle (self : Q) : T :=
  let one := one in
  let two := one + one in
  let n := v3_norm2 (q self) in
  two * fatan2 n (q0 self).

(** quaternion.rs:349-353, [get_axis] *)
Definition q_get_axis (self : Q) : option (V3 T) :=
  match q_normalize self with
  | None => None
  | Some qn =>
      let s := fsin (q_get_angle qn / lit_2) in
      if epsilon <? abs s then Some (v3_div (q qn) s) else None
  end.

(** quaternion.rs:356-358, [axis_angle] *)
Definition q_axis_angle (self : Q) : option (V3 T) * T :=
  (q_get_axis self, q_get_angle self).

(** quaternion.rs:363-372, [normalize_q] *)
Definition q_normalize_q (self : Q) : Q :=
  let a := q_dot self self in
  if epsilon <? a then
    let result := q_div_s self (fsqrt a) in
    mkQ (q0 result) (q result) true
  else mkQ zero v3_x_axis true.

(** quaternion.rs:374-382, [normalize_a] (private) *)
Definition q_normalize_a (self : Q) : Q * T :=
  if normalized self then (self, one)
  else
    let a := q_norm2 self in
    let result := q_div_s self a in
    (mkQ (q0 result) (q result) true, a).

(** quaternion.rs:385-388, [argq] *)
Definition q_argq (self : Q) : Q :=
  let result := q_new zero (q self) in
  q_normalize_q result.

(** quaternion.rs:391-402, [exp] *)
Definition q_exp (self : Q) : Q :=
  let real := q_real self in
  let real_exp := fexp real in
  let scale := real_exp in
  let imag_norm := q_abs_imag self in
  let scale :=
    if epsilon <? imag_norm then scale * (fsin imag_norm / imag_norm) else scale in
  mkQ (real_exp * fcos imag_norm) (v3_scale (q self) scale) (q_norm2 self <? epsilon).

(** quaternion.rs:405-416, [ln] *)
Definition q_ln (self : Q) : Q :=
  let ' (q_norm, a) := q_normalize_a self in
  let real := q_real q_norm in
  let imag_norm := q_abs_imag q_norm in
  let arg_angle := fatan2 imag_norm real in
  if epsilon <? imag_norm then
    let imag_norm := arg_angle / imag_norm in
    mkQ (fln a) (v3_scale (q q_norm) imag_norm) false
  else mkQ (fln a) [| arg_angle; zero; zero |] false.

(** quaternion.rs:419-423, [sqrt] *)
Definition q_sqrt (self : Q) : Q :=
  let one := one in
  let two := one + one in
  q_exp (q_scale (q_ln self) (one / two)).

(** quaternion.rs:426-428, [pow] *)
Definition q_pow (self rhs : Q) : Q := q_exp (q_mul rhs (q_ln self)).

(** quaternion.rs:445-484, [slerp] *)
Definition q_slerp (a b : Q) (t : T) : Q :=
  let one := one in
  let result := q_zero in
  let cos_half_theta := q_dot a b in
  if one <=? abs cos_half_theta then a
  else
    let ' (reverse_a, cos_half_theta) :=
      if cos_half_theta <? zero then (true, - cos_half_theta)
      else (false, cos_half_theta) in
    let half_theta := facos cos_half_theta in
    let sin_half_theta := fsqrt (one - cos_half_theta * cos_half_theta) in
    if abs sin_half_theta <? lit_1em3 then
      if negb reverse_a then
        mkQ ((one - t) * q0 a + t * q0 b)
            [| (one - t) * (q a).[0] + t * (q b).[0];
               (one - t) * (q a).[1] + t * (q b).[2];
               (one - t) * (q a).[2] + t * (q b).[1] |]
            (normalized result)
      else result
    else
      let aux1 := fsin ((one - t) * half_theta) / sin_half_theta in
      let aux2 := fsin (t * half_theta) / sin_half_theta in
      if negb reverse_a then
        mkQ (aux1 * q0 a + aux2 * q0 b)
            (v3_add (v3_scale (q a) aux1) (v3_scale (q b) aux2)) (normalized result)
      else
        mkQ (aux1 * q0 a - aux2 * q0 b)
            (v3_sub (v3_scale (q a) aux1) (v3_scale (q b) aux2)) (normalized result).

(** quaternion.rs:492-496, [derivative] *)
Definition q_derivative (self : Q) (rate : V3 T) : Q :=
  let one := one in
  let two := one + one in
  q_mul (q_scale (q_new_imag rate) (one / two)) self.

(** quaternion.rs:501-512, [inverse] *)
Definition q_inverse (self : Q) : option Q :=
  if negb (normalized self) then
    let norm_sqr := q_abs2 self in
    if negb (nearly_zero norm_sqr) then Some (q_div_s (q_conj self) norm_sqr)
    else None
  else Some (q_conj self).

(** quaternion.rs:184-186, [q / q]; panics ([unwrap]) when [inverse] is [None] *)
Definition q_div (self rhs : Q) : outcome Q :=
  i <- unwrap (q_inverse rhs) ;; Ok (q_mul self i).

(** quaternion.rs:515-520, [sin]; may panic through [q / q] *)
Definition q_sin (self : Q) : outcome Q :=
  let one := one in
  let two := one + one in
  let l := q_argq self in
  q_div (q_sub (q_exp (q_mul self l)) (q_exp (q_mul self (q_neg l)))) (q_scale l two).

(** quaternion.rs:523-528, [cos] *)
Definition q_cos (self : Q) : Q :=
  let one := one in
  let two := one + one in
  let l := q_argq self in
  q_div_s (q_add (q_exp (q_mul self l)) (q_exp (q_mul self (q_neg l)))) two.

End Quat.
