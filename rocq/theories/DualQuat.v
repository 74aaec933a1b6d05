(** * DualQuat: dual_quaternion.rs, and [compare_dual_quaternions] of utils.rs

    [Display] is in Display.v. *)

From Coq Require Import List Bool.
From Verif Require Import Base Scalar Vec Slices Mat3 Mat4 Quat Transf.
Import ListNotations.
Open Scope sc_scope.

(** dual_quaternion.rs:43-51, [struct DualQuaternion]; private fields *)
Record DualQuaternion (T : Type) := mkDQ {
  q_real_ : Quaternion T;
  q_dual_ : Quaternion T;
  dq_normalized : bool
}.
Arguments mkDQ {T}.
Arguments q_real_ {T}.
Arguments q_dual_ {T}.
Arguments dq_normalized {T}.

Section DualQuat.
Context {T : Type} {nT : Num T} {sT : Signed T} {oT : POrd T} {fT : Float T}.
Notation Q := (Quaternion T).
Notation DQ := (DualQuaternion T).

(** dual_quaternion.rs:55-61, [new] *)
Definition dq_new (q_real q_dual : Q) : DQ := mkDQ q_real q_dual false.

(** dual_quaternion.rs:66-68, [real] *)
Definition dq_real (self : DQ) : Q := q_real_ self.

(** dual_quaternion.rs:71-73, [dual] *)
Definition dq_dual (self : DQ) : Q := q_dual_ self.

(** dual_quaternion.rs:76-82, [new_from_rotation] *)
Definition dq_new_from_rotation (r : Q) : DQ := mkDQ r q_zero true.

(** dual_quaternion.rs:86-92, [new_from_point] *)
Definition dq_new_from_point (v : V3 T) : DQ := mkDQ q_one (q_new_imag v) true.

(** dual_quaternion.rs:468-470, [zero] (via 456-458) *)
Definition dq_zero : DQ := dq_new q_zero q_zero.

(** dual_quaternion.rs:480-486, [one] (via 461-463) *)
Definition dq_one : DQ := mkDQ q_one q_zero true.

(** derived [PartialEq] (dual_quaternion.rs:43) *)
Definition dq_eqb (a b : DQ) : bool :=
  q_eqb (q_real_ a) (q_real_ b) && q_eqb (q_dual_ a) (q_dual_ b)
  && Bool.eqb (dq_normalized a) (dq_normalized b).

(** dual_quaternion.rs:472-474, [is_zero] *)
Definition dq_is_zero (self : DQ) : bool := dq_eqb self dq_zero.

(** dual_quaternion.rs:98-100, [dq + dq] *)
Definition dq_add (self rhs : DQ) : DQ :=
  dq_new (q_add (q_real_ self) (q_real_ rhs)) (q_add (q_dual_ self) (q_dual_ rhs)).

(** dual_quaternion.rs:106-108, [dq - dq] *)
Definition dq_sub (self rhs : DQ) : DQ :=
  dq_new (q_sub (q_real_ self) (q_real_ rhs)) (q_sub (q_dual_ self) (q_dual_ rhs)).

(** dual_quaternion.rs:115-117, [-dq] *)
Definition dq_neg (self : DQ) : DQ :=
  dq_new (q_neg (q_real_ self)) (q_neg (q_dual_ self)).

(** dual_quaternion.rs:125-129, [dq * dq] *)
Definition dq_mul (self rhs : DQ) : DQ :=
  let q_real := q_mul (q_real_ self) (q_real_ rhs) in
  let q_dual := q_add (q_mul (q_real_ self) (q_dual_ rhs)) (q_mul (q_dual_ self) (q_real_ rhs)) in
  dq_new q_real q_dual.

(** dual_quaternion.rs:135-137, [dq * const] *)
Definition dq_scale (self : DQ) (rhs : T) : DQ :=
  dq_new (q_scale (q_real_ self) rhs) (q_scale (q_dual_ self) rhs).

(** dual_quaternion.rs:144-149, [dq / dq]; panics through [q / q] *)
Definition dq_div (self rhs : DQ) : outcome DQ :=
  let rhs_real_sqr := q_mul (q_real_ rhs) (q_real_ rhs) in
  prod_real <- q_div (q_mul (q_real_ self) (q_real_ rhs)) rhs_real_sqr ;;
  prod_dual <- q_div (q_sub (q_mul (q_real_ rhs) (q_dual_ self))
                            (q_mul (q_real_ self) (q_dual_ rhs))) rhs_real_sqr ;;
  Ok (dq_new prod_real prod_dual).

(** dual_quaternion.rs:396-398, [conj] *)
Definition dq_conj (self : DQ) : DQ :=
  dq_new (q_conj (q_real_ self)) (q_conj (q_dual_ self)).

(** dual_quaternion.rs:401-403, [conj_as_dual] *)
Definition dq_conj_as_dual (self : DQ) : DQ :=
  dq_new (q_real_ self) (q_neg (q_dual_ self)).

(** dual_quaternion.rs:406-408, [conj_combined] *)
Definition dq_conj_combined (self : DQ) : DQ :=
  dq_new (q_conj (q_real_ self)) (q_neg (q_conj (q_dual_ self))).

(** dual_quaternion.rs:411-413, [norm] *)
Definition dq_norm (self : DQ) : DQ := dq_mul self (dq_conj self).

(** dual_quaternion.rs:423-427, [get_translation] *)
Definition dq_get_translation (self : DQ) : V3 T :=
  let one := one in
  let two := one + one in
  q_imag (q_mul (q_scale (dq_dual self) two) (q_conj (dq_real self))).

(** dual_quaternion.rs:416-420, [to_rotation_translation] *)
Definition dq_to_rotation_translation (self : DQ) : M33 T * V3 T :=
  let r := q_to_rotation (dq_real self) in
  let t := dq_get_translation self in
  (r, t).

(** dual_quaternion.rs:430-436, [to_quaternion_translation] *)
Definition dq_to_quaternion_translation (self : DQ) : Q * V3 T :=
  let one := one in
  let two := one + one in
  let q := dq_real self in
  let t := q_mul (q_scale (dq_dual self) two) (q_conj (dq_real self)) in
  (q, q_imag t).

(** dual_quaternion.rs:440-443, [transform_point] *)
Definition dq_transform_point (self : DQ) (point : V3 T) : V3 T :=
  let dq_point := dq_new_from_point point in
  q_imag (dq_dual (dq_mul (dq_mul self dq_point) (dq_conj self))).

(** dual_quaternion.rs:448-453, [new_from_vecs] *)
Definition dq_new_from_vecs (q_real q_dual : V4 T) : DQ :=
  dq_new (q_new_from_vec q_real) (q_new_from_vec q_dual).

(** dual_quaternion.rs:154-157, [to_homogeneous] *)
Definition dq_to_homogeneous (self : DQ) : M44 T :=
  let ' (r, p) := dq_to_rotation_translation self in
  homogeneous_from_rotation r p.

(** dual_quaternion.rs:160-170, [inverse]; panics ([expect]) when the real part
    has no inverse *)
Definition dq_inverse (self : DQ) : outcome DQ :=
  if dq_normalized self then Ok (dq_conj self)
  else
    q_real_inv <- unwrap (q_inverse (q_real_ self)) ;;
    Ok (dq_new q_real_inv (q_mul (q_mul (q_neg q_real_inv) (q_dual_ self)) q_real_inv)).

(** dual_quaternion.rs:182-205, [get_screw_parameters] *)
Definition dq_get_screw_parameters (self : DQ) : V3 T * V3 T * T * T :=
  let one := one in
  let two := one + one in
  let half := one / two in
  let theta := q_get_angle (dq_real self) in
  let t := dq_get_translation self in
  if negb (nearly_zero theta) then
    let l := v3_div (q_imag (dq_real self)) (fsin (theta / two)) in
    let d := v3_dot t l in
    let cot := one / ftan (theta / two) in
    let m := v3_scale (v3_add (v3_cross t l) (v3_scale (v3_sub t (v3_scale l d)) cot)) half in
    (l, m, theta, d)
  else
    let d := v3_norm2 t in
    let l := v3_zeros in
    let l := if negb (nearly_zero d) then v3_div t d else l in
    let inf := infinity in
    let m := [| inf; inf; inf |] in
    (l, m, theta, d).

(** dual_quaternion.rs:222-229, [new_from_screw_parameters] *)
Definition dq_new_from_screw_parameters (l m : V3 T) (theta d : T) : DQ :=
  let one := one in
  let two := one + one in
  let ' (sin, cos) := sin_cos (theta / two) in
  let q_real := q_new cos (v3_scale l sin) in
  let q_dual := q_new (sin * (- d / two))
                  (v3_add (v3_scale m sin) (v3_scale (v3_scale l (d / two)) cos)) in
  dq_new q_real q_dual.

(** dual_quaternion.rs:241-261, [pow] *)
Definition dq_pow (self : DQ) (exponent : T) : DQ :=
  let one := one in
  let two := one + one in
  let theta := two * facos (q_real (dq_real self)) in
  let ' (s, c) := sin_cos (theta / two) in
  if nearly_zero theta then
    dq_new_from_point (v3_scale (dq_get_translation self) exponent)
  else
    let s0 := v3_div (q_imag (dq_real self)) s in
    let d := q_real (dq_dual self) * - two / s in
    let se := v3_div (v3_sub (q_imag (dq_dual self)) (v3_scale (v3_scale s0 (d / two)) c)) s in
    let ' (s_exp, c_exp) := sin_cos (exponent * theta / two) in
    let q_real := q_new c_exp (v3_scale s0 s_exp) in
    let q_dual := q_new (s_exp * - exponent * d / two)
      (v3_add (v3_div (v3_scale (v3_scale (v3_scale s0 c_exp) exponent) d) two)
              (v3_scale se s_exp)) in
    dq_new q_real q_dual.

(** dual_quaternion.rs:273-282, [screw_lerp] *)
Definition dq_screw_lerp (begin end_ : DQ) (tau : T) : outcome DQ :=
  let one := one in
  let start := begin in
  let start :=
    if q_real (q_mul (dq_real start) (dq_real end_)) <? zero then
      mkDQ (q_scale (dq_real begin) (- one)) (q_dual_ start) (dq_normalized start)
    else start in
  i <- dq_inverse start ;;
  Ok (dq_mul start (dq_pow (dq_mul i end_) tau)).

(** dual_quaternion.rs:285-297, [log]; panics ([expect]) without an axis *)
Definition dq_log (self : DQ) : outcome (option DQ) :=
  if dq_normalized self then
    let one := one in
    let two := one + one in
    let half := one / two in
    let ' (axis, angle) := q_axis_angle (dq_real self) in
    a <- unwrap axis ;;
    let q_real := q_new_imag (v3_scale (v3_scale a half) angle) in
    let q_dual := q_new_imag (v3_scale (dq_get_translation self) half) in
    Ok (Some (dq_new q_real q_dual))
  else Ok None.

(** dual_quaternion.rs:302-310, [new_from_array] *)
Definition dq_new_from_array (array : arr T 7) : DQ :=
  let one := one in
  let half := one / (one + one) in
  let v_q := [| array.[0]; array.[1]; array.[2]; array.[3] |] in
  let q_real := q_new_from_vec v_q in
  let v_d := [| array.[4]; array.[5]; ix5 (atl array) |] in
  let q_dual := q_mul (q_scale (q_new_imag v_d) half) q_real in
  dq_new q_real q_dual.

(** dual_quaternion.rs:313-321, [new_from_translation] *)
Definition dq_new_from_translation (t : V3 T) : DQ :=
  let one := one in
  let two := one + one in
  mkDQ q_one (q_new_imag [| t.[0] / two; t.[1] / two; t.[2] / two |]) true.

(** dual_quaternion.rs:324-334, [new_from_rot_trans]; panics ([expect]) *)
Definition dq_new_from_rot_trans (rot : Q) (translation : V3 T) : outcome DQ :=
  let one := one in
  let half := one / (one + one) in
  q_real <- unwrap (q_normalize rot) ;;
  let q_dual := q_mul (q_scale (q_new_imag translation) half) q_real in
  Ok (mkDQ q_real q_dual true).

(** dual_quaternion.rs:336-351, [is_normalized] *)
Definition dq_is_normalized (self : DQ) : bool :=
  if dq_normalized self then true
  else if nearly_zero (q_norm2 (dq_real self)) then true
  else
    let check1 := nearly_equal (q_norm2 (dq_real self)) one epsilon in
    let dual_norm := q_div_s (dq_dual self) (q_norm2 (dq_real self)) in
    let check2 :=
      nearly_equal (q_real dual_norm) (q_real (dq_dual self)) epsilon
      && nearly_equal (q_imag dual_norm).[0] (q_imag (dq_dual self)).[0] epsilon
      && nearly_equal (q_imag dual_norm).[1] (q_imag (dq_dual self)).[1] epsilon
      && nearly_equal (q_imag dual_norm).[2] (q_imag (dq_dual self)).[2] epsilon in
    check1 && check2.

(** dual_quaternion.rs:356-371, [normalize] *)
Definition dq_normalize (self : DQ) : option DQ :=
  if dq_normalized self then Some self
  else
    let norm_q_real := q_norm2 (q_real_ self) in
    if negb (nearly_zero norm_q_real) then
      Some (mkDQ (q_div_s (q_real_ self) norm_q_real) (q_div_s (q_dual_ self) norm_q_real) true)
    else None.

(** dual_quaternion.rs:376-382, [new_from_homogeneous]; panics ([expect]) *)
Definition dq_new_from_homogeneous (t : M44 T) : outcome DQ :=
  let ' (rot, p) := get_parts_raw t in
  q <- unwrap (q_normalize (q_from_rotation rot)) ;;
  dq_new_from_rot_trans q p.

(** dual_quaternion.rs:385-391, [new_from_rotation_matrix] *)
Definition dq_new_from_rotation_matrix (m : M33 T) : DQ :=
  mkDQ (q_from_rotation m) q_zero true.

(** utils.rs:88-102, [compare_dual_quaternions] *)
Definition compare_dual_quaternions (a b : DQ) (epsilon : T) : bool :=
  nearly_equal (q_real (dq_real a)) (q_real (dq_real b)) epsilon
  && nearly_equal (q_imag (dq_real a)).[0] (q_imag (dq_real b)).[0] epsilon
  && nearly_equal (q_imag (dq_real a)).[1] (q_imag (dq_real b)).[1] epsilon
  && nearly_equal (q_imag (dq_real a)).[2] (q_imag (dq_real b)).[2] epsilon
  && nearly_equal (q_real (dq_dual a)) (q_real (dq_dual b)) epsilon
  && nearly_equal (q_imag (dq_dual a)).[0] (q_imag (dq_dual b)).[0] epsilon
  && nearly_equal (q_imag (dq_dual a)).[1] (q_imag (dq_dual b)).[1] epsilon
  && nearly_equal (q_imag (dq_dual a)).[2] (q_imag (dq_dual b)).[2] epsilon.

End DualQuat.
