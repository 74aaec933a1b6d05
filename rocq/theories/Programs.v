(** * Programs: the computations of the programs in examples/

    Printing is left out: each program becomes the function from its data to the values
    it prints. The data of the program become arguments. *)

From Coq Require Import List Bool Arith.
From Verif Require Import Base Scalar Vec Slices MatLoops Mat2 Mat3 Mat4 Mat5 Mat6 MatOps Quat DualQuat Transf.
Import ListNotations.
Open Scope sc_scope.

Section Programs.
Context {T : Type} {nT : Num T} {sT : Signed T} {oT : POrd T} {fT : Float T}.

(** examples/eigenvalues.rs:40-44, [convert_to_similar]. The program has it for M33; the text
    fits every size, and so it is written for all of them. *)
Definition convert_to_similar (d : dim) (m : mat T (dimn d)) : outcome (mat T (dimn d)) :=
  o <- d_qr d m ;;
  match o with
  | Some (q, r) => Ok (d_mul d r q)
  | None => Ok m
  end.

(** examples/eigenvalues.rs:56-61, the [while] loop. [k] is [max_iterations - counter], so the
    test [counter < max_iterations] is [k <> 0]. *)
Fixpoint eigen_while (tol : T) (k : nat) (m : M33 T) (result : bool) (counter : nat) : outcome (M33 T * nat) :=
  match k with
  | O => Ok (m, counter)
  | S k =>
      if negb result then
        m <- convert_to_similar D3 m ;;
        lower <- get_lower_triangular 3 m ;;
        eigen_while tol k m (check_elements (alist lower) tol) (S counter)
      else Ok (m, counter)
  end.

(** examples/eigenvalues.rs:46-67, [main]: the eigenvalues and the number of iterations
    ([tol] is 1e-9 and [max_iterations] is 200 there) *)
Definition eigenvalues (tol : T) (max_iterations : nat) (m : M33 T) : outcome (V3 T * nat) :=
  ' (m, counter) <- eigen_while tol max_iterations m false 0 ;;
  e <- d_get_diagonal D3 m ;;
  Ok (e, counter).

(** examples/solve_linear_system.rs:39-44: the solution and the verification. The program has
    it for M66. *)
Definition solve (d : dim) (a : mat T (dimn d)) (b : arr T (dimn d)) : outcome (option (arr T (dimn d) * arr T (dimn d))) :=
  o <- d_inverse d a ;;
  match o with
  | Some inv => let solution := d_mul_v d inv b in Ok (Some (solution, d_mul_v d a solution))
  | None => Ok None
  end.

(** examples/inverse.rs:37-40: the inverse and the check. The program has it for M66. *)
Definition inverse_check (d : dim) (m : mat T (dimn d)) : outcome (option (mat T (dimn d) * mat T (dimn d))) :=
  o <- d_inverse d m ;;
  match o with
  | Some inv => Ok (Some (inv, d_mul d inv m))
  | None => Ok None
  end.

(** examples/quaternions.rs:43-44, [q * q * q * q * x] ([v] is the z axis times 90 degrees and [x] the
    x axis there) *)
Definition quaternions_turns (v x : V3 T) : V3 T :=
  let q := q_rotation_norm_encoded v in
  q_mul_v (q_mul (q_mul (q_mul q q) q) q) x.

(** examples/quaternions.rs:49-51: the Euler angles of the quaternion made of Euler angles *)
Definition quaternions_euler (yay pitch roll : T) : T * T * T :=
  q_to_euler_angles (q_from_euler_angles yay pitch roll).

(** examples/dual_quaternions.rs:36-49: [t], [double], [normal], [combined], [combined2], for the Euler
    angles of [rot] and [q], the translation of [t] and that of [t_pure] *)
Definition dual_quaternions (yay pitch roll : T) (p x : V3 T)
  : outcome (M44 T * M44 T * DualQuaternion T * DualQuaternion T * DualQuaternion T) :=
  let rot := euler_to_rotation yay pitch roll None in
  let q := q_from_euler_angles yay pitch roll in
  let t := homogeneous_from_quaternion q p in
  dq <- dq_new_from_homogeneous t ;;
  let double := dq_to_homogeneous dq in
  let t_pure := dq_new_from_translation x in
  let r_pure := dq_new_from_rotation q in
  normal <- dq_new_from_rot_trans q x ;;
  let combined := dq_mul t_pure r_pure in
  let r_pure2 := dq_new_from_rotation_matrix rot in
  let combined2 := dq_mul t_pure r_pure2 in
  Ok (t, double, normal, combined, combined2).

(** examples/dual_quaternion_screw_parameters.rs:37-41 ([v] is the z axis times 45 degrees and [trans]
    is (0, 0, 7) there) *)
Definition screw_parameters (v trans : V3 T) : outcome (V3 T * V3 T * T * T) :=
  let q := q_rotation_norm_encoded v in
  dq_full <- dq_new_from_rot_trans q trans ;;
  Ok (dq_get_screw_parameters dq_full).

(** examples/dual_quaternion_transform_point.rs:40-48: [expected] and [result] *)
Definition transform_points (yay pitch roll : T) (trans p : V3 T) : outcome (V4 T * V3 T) :=
  let q := q_from_euler_angles yay pitch roll in
  let t := homogeneous_from_quaternion q trans in
  let expected := m44_mul_v t [| p.[0]; p.[1]; p.[2]; zero |] in
  dq <- dq_new_from_homogeneous t ;;
  Ok (expected, dq_transform_point dq p).
End Programs.
