(** * ProofsDisplay: the text shown for vectors, matrices, quaternions and dual
      quaternions (C70), what formatting does besides (C71), shape, constants,
      boolean and (C72) *)

From Coq Require Import String Ascii List Arith Lia Bool Ring ZArith Reals.
From Verif Require Import Base Scalar Vec Mat2 Mat3 MatOps Quat DualQuat Display RingDet Spec Entries
  InstZ ProofsQuat.
Import ListNotations.
Open Scope string_scope.

Lemma append_assoc (a b c : string) : (a ++ b) ++ c = a ++ (b ++ c).
Proof. induction a; cbn; [reflexivity|congruence]. Qed.

Lemma append_empty_r (a : string) : a ++ "" = a.
Proof. induction a; cbn; [reflexivity|congruence]. Qed.

(** how column [j] of a square matrix of size [n] is laid out *)
Definition column_spec (n j : nat) : spec :=
  if Nat.eqb n 2 then mkSpec Center 3 2
  else if Nat.eqb j 0 then mkSpec Left 7 2
  else if Nat.eqb (S j) n then mkSpec Right 7 2
  else mkSpec Center 7 2.

Definition LF : string := String "010"%char "".

Section Text.
Context {T : Type} {dT : Display T}.

Definition vector_text {n} (v : arr T n) (d : T) : string :=
  "[" ++ String.concat " " (map (fun i => show (mkSpec Center 3 2) (nth i (alist v) d)) (seq 0 n)) ++ "]" ++ LF.

Definition row_text {n} (A : mat T n) (i : nat) (d : T) : string :=
  "|" ++ String.concat " "
    (map (fun j => show (column_spec n j) (nth j (alist (nth i (alist A) (amake n d))) d)) (seq 0 n))
  ++ "|" ++ LF.

Definition matrix_text {n} (A : mat T n) (d : T) : string :=
  String.concat "" (map (fun i => row_text A i d) (seq 0 n)).

(** ** C70 *)

(** a vector is shown as its elements in order, between brackets, on one line *)
Lemma c70_vector_text : forall d (v : arr T (dimn d)) s x0,
  dest (d_vfmt d v s) = dest s ++ vector_text v x0.
Proof.
  intros d v s x0. destruct d; unfold vector_text; cbn -[append show]; unfold LF, newline; cbn -[append show];
  rewrite ?append_assoc; cbn [append]; rewrite ?append_assoc; cbn [append]; reflexivity.
Qed.

(** a matrix is shown row by row, one line each, elements in column order: first
    column to the left, last to the right, the others centred *)
Lemma c70_matrix_text : forall d (A : mat T (dimn d)) s x0,
  dest (d_fmt d A s) = dest s ++ matrix_text A x0.
Proof.
  intros d A s x0. destruct d; unfold matrix_text, row_text; cbn -[append show]; unfold LF, newline; cbn -[append show];
  rewrite ?append_assoc; cbn [append]; rewrite ?append_assoc; cbn [append]; reflexivity.
Qed.

(** a quaternion is its scalar part, then its vector part as a vector *)
Lemma c70_quaternion_text : forall (a : Quaternion T) s x0,
  dest (q_fmt a s) = dest s ++ "q0: " ++ show (mkSpec Center 3 2) (q0 a) ++ ", q:" ++ vector_text (n := 3) (q a) x0.
Proof.
  intros a s x0. unfold q_fmt, andthen, write. cbn [dest].
  change (v3_fmt (q a)) with (d_vfmt D3 (q a)). rewrite (c70_vector_text D3 _ _ x0). cbn [dest dimn].
  rewrite !append_assoc. reflexivity.
Qed.

(** a dual quaternion is its real part, then its dual part *)
Lemma c70_dual_text : forall (a : DualQuaternion T) s,
  dest (dq_fmt a s) =
  dest s ++ "real: " ++ format (q_fmt (q_real_ a)) ++ LF ++ "dual: " ++ format (q_fmt (q_dual_ a)).
Proof.
  intros a s. pose (x0 := q0 (q_real_ a)).
  unfold dq_fmt, andthen, write, format.
  rewrite !(c70_quaternion_text _ _ x0); cbn [dest]; rewrite ?(c70_quaternion_text _ _ x0); cbn [dest].
  change newline with LF. unfold LF. cbn [append].
  rewrite ?append_assoc; cbn [append]; rewrite ?append_assoc; cbn [append]; reflexivity.
Qed.

(** ** C71: vectors, quaternions and dual quaternions only append to the
       destination; a matrix also prints an empty line on the standard output *)
Lemma c71_no_output_partial :
  (forall d (v : arr T (dimn d)) s, stdout (d_vfmt d v s) = stdout s)
  /\ (forall (a : Quaternion T) s, stdout (q_fmt a s) = stdout s)
  /\ (forall (a : DualQuaternion T) s, stdout (dq_fmt a s) = stdout s).
Proof. split; [intros [] v s; reflexivity| split]; reflexivity. Qed.

Lemma c71_matrix_prints : forall d (A : mat T (dimn d)) s,
  stdout (d_fmt d A s) = stdout s ++ LF.
Proof. intros [] A s; reflexivity. Qed.

End Text.

(** whatever the elements and however they are shown, showing a matrix is not free
    of side effects *)
Lemma c71_no_output_refuted : forall (T : Type) (dT : Display T) d (A : mat T (dimn d)),
  exists s, stdout (d_fmt d A s) <> stdout s.
Proof.
  intros T dT d A. exists (mkIo "" ""). rewrite c71_matrix_prints. discriminate.
Qed.

(** ** C72 *)
Lemma alist_length {T n} (v : arr T n) : List.length (alist v) = n.
Proof. induction n as [ |n IH]; cbn; [reflexivity|now rewrite IH]. Qed.

Lemma c72_shape : forall (T : Type) d (A : mat T (dimn d)), shape A = (dimn d, dimn d).
Proof. intros T d A. unfold shape, cols, rows. now rewrite alist_length. Qed.

Lemma c72_bitand : forall (a b : V4 bool) i x y,
  aget a i = Ok x -> aget b i = Ok y -> aget (v4_bitand a b) i = Ok (x && y)%bool.
Proof.
  intros (a & b & c & d & []) (a' & b' & c' & d' & []) i x y Hx Hy.
  do 4 (destruct i as [ |i]; [cbn in Hx, Hy; injection Hx as <-; injection Hy as <-; reflexivity| ]).
  discriminate.
Qed.

Section Num.
Context {T : Type} {nT : Num T}.

Lemma c72_from_array : forall (v : arr T 4),
  qval (q_from_array v) = (vfun v 0, vfun v 1, vfun v 2, vfun v 3)
  /\ normalized (q_from_array v) = false.
Proof. intros (a & b & c & d & []). split; reflexivity. Qed.

Lemma c72_new_from : forall a b c e : T,
  mfun (m22_new_from a b c e) 0 0 = a /\ mfun (m22_new_from a b c e) 0 1 = b
  /\ mfun (m22_new_from a b c e) 1 0 = c /\ mfun (m22_new_from a b c e) 1 1 = e.
Proof. repeat split. Qed.

End Num.

Section Laws.
Context {T : Type} {nT : Num T} {sT : Signed T}.
Variable RT : RingLaws T.
Let RT' : ring_theory zero one add mul sub neg (@eq T) := RT.
Add Ring TheRing : RT'.
Open Scope sc_scope.

Lemma c72_zeros : forall d (v : arr T (dimn d)),
  d_vadd d (d_vZEROS d) v = v /\ d_vadd d v (d_vZEROS d) = v /\ d_vZEROS d = d_vzeros d.
Proof.
  intros d v. split; [ |split].
  - apply vfun_ext; intros i Hi. rewrite d_vadd_entry by auto.
    replace (d_vZEROS d) with (d_vzeros (T := T) d) by (destruct d; reflexivity).
    rewrite d_vzeros_entry by auto. ring.
  - apply vfun_ext; intros i Hi. rewrite d_vadd_entry by auto.
    replace (d_vZEROS d) with (d_vzeros (T := T) d) by (destruct d; reflexivity).
    rewrite d_vzeros_entry by auto. ring.
  - destruct d; reflexivity.
Qed.

Ltac comp := cbv -[zero one add sub mul neg div];
  repeat match goal with |- (_, _) = (_, _) => refine (f_equal2 pair _ _) end; try reflexivity; ring.

Lemma c72_m22 : forall A : M22 T,
  m22_add M22_ZEROS A = A /\ m22_mul M22_IDENT A = A /\ m22_mul A M22_IDENT = A.
Proof.
  intros ((a & b & []) & (c & e & []) & []).
  repeat split; comp.
Qed.

(** the axes are a right-handed frame, and any vector is the combination of them
    by its own coordinates *)
Lemma c72_axes : v3_cross X_AXIS Y_AXIS = Z_AXIS /\ v3_cross Y_AXIS Z_AXIS = X_AXIS
  /\ v3_cross Z_AXIS X_AXIS = Y_AXIS
  /\ (forall v : V3 T, v = v3_add (v3_add (v3_scale X_AXIS (vfun v 0)) (v3_scale Y_AXIS (vfun v 1)))
                                (v3_scale Z_AXIS (vfun v 2)))
  /\ (forall v : V2 T, v = v2_add (v2_scale V2_X_AXIS (vfun v 0)) (v2_scale V2_Y_AXIS (vfun v 1))).
Proof.
  repeat split; try (intros (a & b & c & [])); try (intros (a & b & [])); comp.
Qed.

End Laws.
Close Scope sc_scope.

(** ** Concrete cases *)
Open Scope nat_scope.
Open Scope string_scope.
Fixpoint digits (fuel n : nat) : string :=
  match fuel with
  | O => ""
  | S f => (if Nat.ltb n 10 then "" else digits f (n / 10)) ++ String (ascii_of_nat (48 + n mod 10)) ""
  end.
Fixpoint spaces (n : nat) : string := match n with O => "" | S n => " " ++ spaces n end.
(** unsigned integers as Rust shows them: the precision has no effect, padding on
    the side opposite to the alignment *)
#[local] Instance show_nat : Display nat := fun sp n =>
  let t := digits 20 n in
  let p := sp_width sp - String.length t in
  match sp_align sp with
  | Left => t ++ spaces p
  | Right => spaces p ++ t
  | Center => spaces (p / 2) ++ t ++ spaces (p - p / 2)
  end.

Example C70_ex : format (d_fmt D3 ([| [| 1; 2; 3 |]; [| 40; 50; 60 |]; [| 7; 8; 9 |] |] : M33 nat))
  = "|1          2          3|" ++ LF ++ "|40        50         60|" ++ LF ++ "|7          8          9|" ++ LF
  /\ format (d_vfmt D2 ([| 12; 3 |] : V2 nat)) = "[12   3 ]" ++ LF.
Proof. vm_compute. split; reflexivity. Qed.

Example C72_ex : v4_bitand [| true; true; false; false |] [| true; false; true; false |] = [| true; false; false; false |]
  /\ v3_cross X_AXIS Y_AXIS = ([| 0; 0; 1 |]%Z : V3 Z).
Proof. split; reflexivity. Qed.
