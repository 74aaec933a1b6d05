(** * MatOps: inverse, QR and LU of M22 .. M66, and the dispatch over sizes *)

From Coq Require Import List Bool Arith.
From Verif Require Import Base Scalar Vec Slices MatLoops Mat2 Mat3 Mat4 Mat5 Mat6.
Import ListNotations.
Open Scope sc_scope.

Section MatOps.
Context {T : Type} {nT : Num T} {sT : Signed T} {oT : POrd T} {fT : Float T}.

(** ** Submatrices *)

(** matrix4x4.rs:337-358, [M44::get_submatrix] *)
Definition m44_get_submatrix (self : M44 T) (selected : nat * nat) : outcome (M33 T) :=
  get_submatrix 3 9 self selected.

(** matrix5x5.rs:919-939, [M55::get_submatrix] (private) *)
Definition m55_get_submatrix (self : M55 T) (selected : nat * nat) : outcome (M44 T) :=
  get_submatrix 4 16 self selected.

(** matrix6x6.rs:1673-1693, [M66::get_submatrix] (private) *)
Definition m66_get_submatrix (self : M66 T) (selected : nat * nat) : outcome (M55 T) :=
  get_submatrix 5 25 self selected.

(** matrix6x6.rs:1787-1819, [M66::copy_elements_from]; returns the updated
    [*self]. *)
Definition m66_copy_elements_from (self : M66 T) (r : M33 T) (quadrant : nat)
  : outcome (M66 T) :=
  match quadrant with
  | 1 => for_ 0 3 self (fun i self => for_ 0 3 self (fun j self =>
           x <- mget r i j ;; mset self i j x))
  | 2 => for_ 0 3 self (fun i self => for_ 3 6 self (fun j self =>
           x <- mget r i (j - 3)%nat ;; mset self i j x))
  | 3 => for_ 3 6 self (fun i self => for_ 0 3 self (fun j self =>
           x <- mget r (i - 3)%nat j ;; mset self i j x))
  | 4 => for_ 3 6 self (fun i self => for_ 3 6 self (fun j self =>
           x <- mget r (i - 3)%nat (j - 3)%nat ;; mset self i j x))
  | _ => Panic
  end.

(** ** Inverse: [Ok (Some m)] is [Some(m)], [Ok None] is [None]. *)

(** matrix2x2.rs:104-115, [inverse] *)
Definition m22_inverse (self : M22 T) : outcome (option (M22 T)) :=
  let det := m22_det self in
  if negb (nearly_zero det) then
    let det_recip := recip det in
    Ok (Some [| [| self.[1].[1] * det_recip; -self.[0].[1] * det_recip |];
                [| -self.[1].[0] * det_recip; self.[0].[0] * det_recip |] |])
  else Ok None.

(** matrix3x3.rs:111-129, [inverse] *)
Definition m33_inverse (self : M33 T) : outcome (option (M33 T)) :=
  let det := m33_det self in
  if negb (nearly_zero det) then
    let invdet := recip det in
    let res := m33_zeros in
    res <- mset res 0 0 ((self.[1].[1] * self.[2].[2] - self.[2].[1] * self.[1].[2]) * invdet) ;;
    res <- mset res 0 1 ((self.[0].[2] * self.[2].[1] - self.[0].[1] * self.[2].[2]) * invdet) ;;
    res <- mset res 0 2 ((self.[0].[1] * self.[1].[2] - self.[0].[2] * self.[1].[1]) * invdet) ;;
    res <- mset res 1 0 ((self.[1].[2] * self.[2].[0] - self.[1].[0] * self.[2].[2]) * invdet) ;;
    res <- mset res 1 1 ((self.[0].[0] * self.[2].[2] - self.[0].[2] * self.[2].[0]) * invdet) ;;
    res <- mset res 1 2 ((self.[1].[0] * self.[0].[2] - self.[0].[0] * self.[1].[2]) * invdet) ;;
    res <- mset res 2 0 ((self.[1].[0] * self.[2].[1] - self.[2].[0] * self.[1].[1]) * invdet) ;;
    res <- mset res 2 1 ((self.[2].[0] * self.[0].[1] - self.[0].[0] * self.[2].[1]) * invdet) ;;
    res <- mset res 2 2 ((self.[0].[0] * self.[1].[1] - self.[1].[0] * self.[0].[1]) * invdet) ;;
    Ok (Some res)
  else Ok None.

(** matrix4x4.rs:170-203, [inverse] *)
Definition m44_inverse (self : M44 T) : outcome (option (M44 T)) :=
  let det := m44_det self in
  if negb (nearly_zero det) then
    let det_recip := recip det in
    s <- m44_get_submatrix self (0, 0) ;; let a1 := m33_det s * det_recip in
    s <- m44_get_submatrix self (1, 0) ;; let a2 := -m33_det s * det_recip in
    s <- m44_get_submatrix self (2, 0) ;; let a3 := m33_det s * det_recip in
    s <- m44_get_submatrix self (3, 0) ;; let a4 := -m33_det s * det_recip in
    s <- m44_get_submatrix self (0, 1) ;; let a5 := -m33_det s * det_recip in
    s <- m44_get_submatrix self (1, 1) ;; let a6 := m33_det s * det_recip in
    s <- m44_get_submatrix self (2, 1) ;; let a7 := -m33_det s * det_recip in
    s <- m44_get_submatrix self (3, 1) ;; let a8 := m33_det s * det_recip in
    s <- m44_get_submatrix self (0, 2) ;; let a9 := m33_det s * det_recip in
    s <- m44_get_submatrix self (1, 2) ;; let a10 := -m33_det s * det_recip in
    s <- m44_get_submatrix self (2, 2) ;; let a11 := m33_det s * det_recip in
    s <- m44_get_submatrix self (3, 2) ;; let a12 := -m33_det s * det_recip in
    s <- m44_get_submatrix self (0, 3) ;; let a13 := -m33_det s * det_recip in
    s <- m44_get_submatrix self (1, 3) ;; let a14 := m33_det s * det_recip in
    s <- m44_get_submatrix self (2, 3) ;; let a15 := -m33_det s * det_recip in
    s <- m44_get_submatrix self (3, 3) ;; let a16 := m33_det s * det_recip in
    Ok (Some [| [| a1; a2; a3; a4 |];
                [| a5; a6; a7; a8 |];
                [| a9; a10; a11; a12 |];
                [| a13; a14; a15; a16 |] |])
  else Ok None.

(** matrix5x5.rs:275-291, [inverse] *)
Definition m55_inverse (self : M55 T) : outcome (option (M55 T)) :=
  let one := one in
  let det := m55_det self in
  if negb (nearly_zero det) then
    cofactors <- for_ 0 5 m55_zeros (fun i cofactors =>
      for_ 0 5 cofactors (fun j cofactors =>
        let sign := if Nat.eqb ((i + j) mod 2) 0 then one else - one in
        s <- m55_get_submatrix self (i, j) ;;
        mset cofactors j i (sign * m44_det s))) ;;
    Ok (Some (m55_div cofactors det))
  else Ok None.

(** matrix6x6.rs:906-922, [inverse] *)
Definition m66_inverse (self : M66 T) : outcome (option (M66 T)) :=
  let one := one in
  let det := m66_det self in
  if negb (nearly_zero det) then
    cofactors <- for_ 0 6 m66_zeros (fun i cofactors =>
      for_ 0 6 cofactors (fun j cofactors =>
        let sign := if Nat.eqb ((i + j) mod 2) 0 then one else - one in
        s <- m66_get_submatrix self (i, j) ;;
        mset cofactors j i (sign * m55_det s))) ;;
    Ok (Some (m66_scale cofactors (recip det)))
  else Ok None.

(** ** QR *)

(** matrix2x2.rs:119-138, [qr] *)
Definition m22_qr (self : M22 T) : outcome (option (M22 T * M22 T)) :=
  if negb (nearly_zero (m22_det self)) then
    cols <- m22_get_cols self ;;
    q0 <- m22_get_cols m22_zeros ;;
    q <- qr_basis v2_sub_assign v2_scale cols q0 ;;
    let basis := [| q.[0]; q.[1] |] in
    q <- m22_new_from_vecs basis ;;
    let r := m22_mul (m22_transpose q) self in
    Ok (Some (q, r))
  else Ok None.

(** matrix3x3.rs:133-152, [qr] *)
Definition m33_qr (self : M33 T) : outcome (option (M33 T * M33 T)) :=
  if negb (nearly_zero (m33_det self)) then
    cols <- m33_get_cols self ;;
    q0 <- m33_get_cols m33_zeros ;;
    q <- qr_basis v3_sub_assign v3_scale cols q0 ;;
    let basis := [| q.[0]; q.[1]; q.[2] |] in
    q <- m33_new_from_vecs basis ;;
    let r := m33_mul (m33_transpose q) self in
    Ok (Some (q, r))
  else Ok None.

(** matrix4x4.rs:207-226, [qr] *)
Definition m44_qr (self : M44 T) : outcome (option (M44 T * M44 T)) :=
  if negb (nearly_zero (m44_det self)) then
    cols <- m44_get_cols self ;;
    q0 <- m44_get_cols m44_zeros ;;
    q <- qr_basis v4_sub_assign v4_scale cols q0 ;;
    let basis := [| q.[0]; q.[1]; q.[2]; q.[3] |] in
    q <- m44_new_from_vecs basis ;;
    let r := m44_mul (m44_transpose q) self in
    Ok (Some (q, r))
  else Ok None.

(** matrix5x5.rs:295-314, [qr] *)
Definition m55_qr (self : M55 T) : outcome (option (M55 T * M55 T)) :=
  if negb (nearly_zero (m55_det self)) then
    cols <- m55_get_cols self ;;
    q0 <- m55_get_cols m55_zeros ;;
    q <- qr_basis v5_sub_assign v5_scale cols q0 ;;
    let basis := [| q.[0]; q.[1]; q.[2]; q.[3]; q.[4] |] in
    q <- m55_new_from_vecs basis ;;
    let r := m55_mul (m55_transpose q) self in
    Ok (Some (q, r))
  else Ok None.

(** matrix6x6.rs:926-946, [qr] *)
Definition m66_qr (self : M66 T) : outcome (option (M66 T * M66 T)) :=
  if negb (nearly_zero (m66_det self)) then
    cols <- m66_get_cols self ;;
    q0 <- m66_get_cols m66_zeros ;;
    q <- qr_basis v6_sub_assign v6_scale cols q0 ;;
    let basis := [| q.[0]; q.[1]; q.[2]; q.[3]; q.[4]; q.[5] |] in
    q <- m66_new_from_vecs basis ;;
    let r := m66_mul (m66_transpose q) self in
    Ok (Some (q, r))
  else Ok None.

(** ** LU: packed factors, determinant, row exchanges *)

(** matrix2x2.rs:285-340, [lu] *)
Definition m22_lu (self : M22 T) : outcome (M22 T * T * arr nat 2) :=
  ' (lu, d, indx) <- lu_factor self ;;
  let det := d * lu.[0].[0] * lu.[1].[1] in
  Ok (lu, det, indx).

(** matrix3x3.rs:157-210, [lu] *)
Definition m33_lu (self : M33 T) : outcome (M33 T * T * arr nat 3) :=
  ' (lu, d, indx) <- lu_factor self ;;
  let det := d * lu.[0].[0] * lu.[1].[1] * lu.[2].[2] in
  Ok (lu, det, indx).

(** matrix4x4.rs:232-285, [lu] *)
Definition m44_lu (self : M44 T) : outcome (M44 T * T * arr nat 4) :=
  ' (lu, d, indx) <- lu_factor self ;;
  let det := d * lu.[0].[0] * lu.[1].[1] * lu.[2].[2] * lu.[3].[3] in
  Ok (lu, det, indx).

(** matrix5x5.rs:319-372, [lu] *)
Definition m55_lu (self : M55 T) : outcome (M55 T * T * arr nat 5) :=
  ' (lu, d, indx) <- lu_factor self ;;
  let det := d * lu.[0].[0] * lu.[1].[1] * lu.[2].[2] * lu.[3].[3] * lu.[4].[4] in
  Ok (lu, det, indx).

(** matrix6x6.rs:952-1005, [lu] *)
Definition m66_lu (self : M66 T) : outcome (M66 T * T * arr nat 6) :=
  ' (lu, d, indx) <- lu_factor self ;;
  let det := d * lu.[0].[0] * lu.[1].[1] * lu.[2].[2] * lu.[3].[3] * lu.[4].[4] * lu.[5].[5] in
  Ok (lu, det, indx).

(** matrix2x2.rs:346-360, [real_eigenvals] *)
Definition m22_real_eigenvals (self : M22 T) : option (V2 T) :=
  let tau := m22_trace self in
  let delta := m22_det self in
  let tau_2 := tau * tau in
  let four := lit_4 in
  let discr := tau_2 - four * delta in
  if discr <? zero then None
  else
    let two := lit_2 in
    let lambda2 := (tau - fsqrt discr) / two in
    let lambda1 := (tau + fsqrt discr) / two in
    Some [| lambda1; lambda2 |].

End MatOps.

(** ** Dispatch over the five sizes

    [dim] lists the sizes the crate provides; [d_op d] is the operation [op] of
    the type [M_dd] / [V_d] (the cited functions above and in Mat2.v .. Mat6.v,
    Vec.v), so that one statement can range over all sizes. *)
Inductive dim : Set := D2 | D3 | D4 | D5 | D6.

Definition dimn (d : dim) : nat :=
  match d with D2 => 2 | D3 => 3 | D4 => 4 | D5 => 5 | D6 => 6 end.

Section Dispatch.
Context {T : Type} {nT : Num T} {sT : Signed T} {oT : POrd T} {fT : Float T}.

Definition d_zeros (d : dim) : mat T (dimn d) :=
  match d with
  | D2 => m22_zeros
  | D3 => m33_zeros
  | D4 => m44_zeros
  | D5 => m55_zeros
  | D6 => m66_zeros
  end.

Definition d_identity (d : dim) : mat T (dimn d) :=
  match d with
  | D2 => m22_identity
  | D3 => m33_identity
  | D4 => m44_identity
  | D5 => m55_identity
  | D6 => m66_identity
  end.

Definition d_add (d : dim) : mat T (dimn d) -> mat T (dimn d) -> mat T (dimn d) :=
  match d with
  | D2 => m22_add
  | D3 => m33_add
  | D4 => m44_add
  | D5 => m55_add
  | D6 => m66_add
  end.

Definition d_sub (d : dim) : mat T (dimn d) -> mat T (dimn d) -> mat T (dimn d) :=
  match d with
  | D2 => m22_sub
  | D3 => m33_sub
  | D4 => m44_sub
  | D5 => m55_sub
  | D6 => m66_sub
  end.

Definition d_mul (d : dim) : mat T (dimn d) -> mat T (dimn d) -> mat T (dimn d) :=
  match d with
  | D2 => m22_mul
  | D3 => m33_mul
  | D4 => m44_mul
  | D5 => m55_mul
  | D6 => m66_mul
  end.

Definition d_add_assign (d : dim) : mat T (dimn d) -> mat T (dimn d) -> mat T (dimn d) :=
  match d with
  | D2 => m22_add_assign
  | D3 => m33_add_assign
  | D4 => m44_add_assign
  | D5 => m55_add_assign
  | D6 => m66_add_assign
  end.

Definition d_sub_assign (d : dim) : mat T (dimn d) -> mat T (dimn d) -> mat T (dimn d) :=
  match d with
  | D2 => m22_sub_assign
  | D3 => m33_sub_assign
  | D4 => m44_sub_assign
  | D5 => m55_sub_assign
  | D6 => m66_sub_assign
  end.

Definition d_neg (d : dim) : mat T (dimn d) -> mat T (dimn d) :=
  match d with
  | D2 => m22_neg
  | D3 => m33_neg
  | D4 => m44_neg
  | D5 => m55_neg
  | D6 => m66_neg
  end.

Definition d_scale (d : dim) : mat T (dimn d) -> T -> mat T (dimn d) :=
  match d with
  | D2 => m22_scale
  | D3 => m33_scale
  | D4 => m44_scale
  | D5 => m55_scale
  | D6 => m66_scale
  end.

Definition d_div (d : dim) : mat T (dimn d) -> T -> mat T (dimn d) :=
  match d with
  | D2 => m22_div
  | D3 => m33_div
  | D4 => m44_div
  | D5 => m55_div
  | D6 => m66_div
  end.

Definition d_mul_v (d : dim) : mat T (dimn d) -> arr T (dimn d) -> arr T (dimn d) :=
  match d with
  | D2 => m22_mul_v
  | D3 => m33_mul_v
  | D4 => m44_mul_v
  | D5 => m55_mul_v
  | D6 => m66_mul_v
  end.

Definition d_transpose (d : dim) : mat T (dimn d) -> mat T (dimn d) :=
  match d with
  | D2 => m22_transpose
  | D3 => m33_transpose
  | D4 => m44_transpose
  | D5 => m55_transpose
  | D6 => m66_transpose
  end.

Definition d_trace (d : dim) : mat T (dimn d) -> T :=
  match d with
  | D2 => m22_trace
  | D3 => m33_trace
  | D4 => m44_trace
  | D5 => m55_trace
  | D6 => m66_trace
  end.

Definition d_det (d : dim) : mat T (dimn d) -> T :=
  match d with
  | D2 => m22_det
  | D3 => m33_det
  | D4 => m44_det
  | D5 => m55_det
  | D6 => m66_det
  end.

Definition d_norm2 (d : dim) : mat T (dimn d) -> T :=
  match d with
  | D2 => m22_norm2
  | D3 => m33_norm2
  | D4 => m44_norm2
  | D5 => m55_norm2
  | D6 => m66_norm2
  end.

Definition d_is_zero (d : dim) : mat T (dimn d) -> bool :=
  match d with
  | D2 => m22_is_zero
  | D3 => m33_is_zero
  | D4 => m44_is_zero
  | D5 => m55_is_zero
  | D6 => m66_is_zero
  end.

Definition d_get_rows (d : dim) : arr (arr T (dimn d)) (dimn d) -> outcome (arr (arr T (dimn d)) (dimn d)) :=
  match d with
  | D2 => m22_get_rows
  | D3 => m33_get_rows
  | D4 => m44_get_rows
  | D5 => m55_get_rows
  | D6 => m66_get_rows
  end.

Definition d_get_cols (d : dim) : arr (arr T (dimn d)) (dimn d) -> outcome (arr (arr T (dimn d)) (dimn d)) :=
  match d with
  | D2 => m22_get_cols
  | D3 => m33_get_cols
  | D4 => m44_get_cols
  | D5 => m55_get_cols
  | D6 => m66_get_cols
  end.

Definition d_new_from_vecs (d : dim) : arr (arr T (dimn d)) (dimn d) -> outcome (arr (arr T (dimn d)) (dimn d)) :=
  match d with
  | D2 => m22_new_from_vecs
  | D3 => m33_new_from_vecs
  | D4 => m44_new_from_vecs
  | D5 => m55_new_from_vecs
  | D6 => m66_new_from_vecs
  end.

Definition d_inverse (d : dim) : mat T (dimn d) -> outcome (option (mat T (dimn d))) :=
  match d with
  | D2 => m22_inverse
  | D3 => m33_inverse
  | D4 => m44_inverse
  | D5 => m55_inverse
  | D6 => m66_inverse
  end.

Definition d_qr (d : dim) : mat T (dimn d) -> outcome (option (mat T (dimn d) * mat T (dimn d))) :=
  match d with
  | D2 => m22_qr
  | D3 => m33_qr
  | D4 => m44_qr
  | D5 => m55_qr
  | D6 => m66_qr
  end.

Definition d_lu (d : dim) : mat T (dimn d) -> outcome (mat T (dimn d) * T * arr nat (dimn d)) :=
  match d with
  | D2 => m22_lu
  | D3 => m33_lu
  | D4 => m44_lu
  | D5 => m55_lu
  | D6 => m66_lu
  end.

Definition d_as_vec (d : dim) (m : mat T (dimn d)) : outcome (arr T (dimn d * dimn d)) :=
  as_vec (dimn d * dimn d) m.
Definition d_get_diagonal (d : dim) (m : mat T (dimn d)) : outcome (arr T (dimn d)) :=
  get_diagonal m.
Definition d_for_each (d : dim) (m : mat T (dimn d)) (f : T -> T) : outcome (mat T (dimn d)) :=
  for_each m f.

(** vectors *)

Definition d_vzeros (d : dim) : arr T (dimn d) :=
  match d with
  | D2 => v2_zeros
  | D3 => v3_zeros
  | D4 => v4_zeros
  | D5 => v5_zeros
  | D6 => v6_zeros
  end.

Definition d_vones (d : dim) : arr T (dimn d) :=
  match d with
  | D2 => v2_ones
  | D3 => v3_ones
  | D4 => v4_ones
  | D5 => v5_ones
  | D6 => v6_ones
  end.

Definition d_vadd (d : dim) : arr T (dimn d) -> arr T (dimn d) -> arr T (dimn d) :=
  match d with
  | D2 => v2_add
  | D3 => v3_add
  | D4 => v4_add
  | D5 => v5_add
  | D6 => v6_add
  end.

Definition d_vsub (d : dim) : arr T (dimn d) -> arr T (dimn d) -> arr T (dimn d) :=
  match d with
  | D2 => v2_sub
  | D3 => v3_sub
  | D4 => v4_sub
  | D5 => v5_sub
  | D6 => v6_sub
  end.

Definition d_vadd_assign (d : dim) : arr T (dimn d) -> arr T (dimn d) -> arr T (dimn d) :=
  match d with
  | D2 => v2_add_assign
  | D3 => v3_add_assign
  | D4 => v4_add_assign
  | D5 => v5_add_assign
  | D6 => v6_add_assign
  end.

Definition d_vsub_assign (d : dim) : arr T (dimn d) -> arr T (dimn d) -> arr T (dimn d) :=
  match d with
  | D2 => v2_sub_assign
  | D3 => v3_sub_assign
  | D4 => v4_sub_assign
  | D5 => v5_sub_assign
  | D6 => v6_sub_assign
  end.

Definition d_vneg (d : dim) : arr T (dimn d) -> arr T (dimn d) :=
  match d with
  | D2 => v2_neg
  | D3 => v3_neg
  | D4 => v4_neg
  | D5 => v5_neg
  | D6 => v6_neg
  end.

Definition d_vscale (d : dim) : arr T (dimn d) -> T -> arr T (dimn d) :=
  match d with
  | D2 => v2_scale
  | D3 => v3_scale
  | D4 => v4_scale
  | D5 => v5_scale
  | D6 => v6_scale
  end.

Definition d_vdiv (d : dim) : arr T (dimn d) -> T -> arr T (dimn d) :=
  match d with
  | D2 => v2_div
  | D3 => v3_div
  | D4 => v4_div
  | D5 => v5_div
  | D6 => v6_div
  end.

Definition d_vlscale (d : dim) : T -> arr T (dimn d) -> arr T (dimn d) :=
  match d with
  | D2 => v2_lscale
  | D3 => v3_lscale
  | D4 => v4_lscale
  | D5 => v5_lscale
  | D6 => v6_lscale
  end.

Definition d_vdot (d : dim) : arr T (dimn d) -> arr T (dimn d) -> T :=
  match d with
  | D2 => v2_dot
  | D3 => v3_dot
  | D4 => v4_dot
  | D5 => v5_dot
  | D6 => v6_dot
  end.

Definition d_vmul_m (d : dim) : arr T (dimn d) -> mat T (dimn d) -> arr T (dimn d) :=
  match d with
  | D2 => v2_mul_m
  | D3 => v3_mul_m
  | D4 => v4_mul_m
  | D5 => v5_mul_m
  | D6 => v6_mul_m
  end.

Definition d_vnorm2 (d : dim) : arr T (dimn d) -> T :=
  match d with
  | D2 => v2_norm2
  | D3 => v3_norm2
  | D4 => v4_norm2
  | D5 => v5_norm2
  | D6 => v6_norm2
  end.

Definition d_vis_zero (d : dim) : arr T (dimn d) -> bool :=
  match d with
  | D2 => v2_is_zero
  | D3 => v3_is_zero
  | D4 => v4_is_zero
  | D5 => v5_is_zero
  | D6 => v6_is_zero
  end.

Definition d_vnormalize (d : dim) : arr T (dimn d) -> outcome (option (arr T (dimn d))) :=
  match d with
  | D2 => v2_normalize
  | D3 => v3_normalize
  | D4 => v4_normalize
  | D5 => v5_normalize
  | D6 => v6_normalize
  end.

End Dispatch.
