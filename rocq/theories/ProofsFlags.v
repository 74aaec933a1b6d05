(** * ProofsFlags: what the cached [normalized] flags remember (C75)

    For every scalar type, hence for floats as well as for ideal numbers. *)

From Coq Require Import List Bool ZArith Reals Lra.
From Verif Require Import Base Scalar Vec Mat2 Mat3 Mat4 Slices Quat Transf DualQuat InstZ InstR RFacts ProofsInverse.
Import ListNotations.
Open Scope sc_scope.

Section AnyScalar.
Context {T : Type} {nT : Num T} {sT : Signed T} {oT : POrd T} {fT : Float T}.
Notation Q := (Quaternion T).
Notation DQ := (DualQuaternion T).

(** a quaternion that is trusted to be a unit: it is returned unchanged by
    normalize() and its inverse() is the conjugate, whatever its components *)
Lemma c75_quat_trusted : forall q : Q, normalized q = true ->
  q_normalize q = Some q /\ q_inverse q = Some (q_conj q).
Proof. intros q H. unfold q_normalize, q_inverse. rewrite H. split; reflexivity. Qed.

(** the same for dual quaternions: they never make inverse() panic, and log()
    looks at them *)
Lemma c75_dual_trusted : forall a : DQ, dq_normalized a = true ->
  dq_is_normalized a = true /\ dq_normalize a = Some a /\ dq_inverse a = Ok (dq_conj a)
  /\ dq_log a <> Ok None.
Proof.
  intros a H. unfold dq_is_normalized, dq_normalize, dq_inverse, dq_log. rewrite H.
  repeat split. destruct (q_axis_angle (dq_real a)) as [[v| ] t]; cbn; discriminate.
Qed.

(** a dual quaternion that is not trusted has no logarithm, however exact its
    components are *)
Lemma c75_dual_untrusted : forall a : DQ, dq_normalized a = false -> dq_log a = Ok None.
Proof. intros a H. unfold dq_log. now rewrite H. Qed.

(** constructors of unit quaternions are trusted *)
Lemma c75_quat_flagged :
  normalized (q_one : Q) = true
  /\ (forall p q : Q, q_normalize p = Some q -> normalized q = true)
  /\ (forall theta v (q : Q), q_rotation theta v = Ok q -> normalized q = true)
  /\ (forall y p r, normalized (q_from_euler_angles y p r : Q) = true)
  /\ (forall p : Q, normalized (q_normalize_q p) = true)
  /\ (forall p : Q, normalized (q_argq p) = true)
  /\ (forall v, nearly_zero (v3_norm2 v) = false -> normalized (q_rotation_norm_encoded v : Q) = true)
  /\ (forall m, normalized (fst (get_parts m) : Q) = true).
Proof.
  assert (N : forall p : Q, normalized (q_normalize_q p) = true).
  { intros p. unfold q_normalize_q. now destruct (ltb _ _). }
  repeat split; try exact N.
  - intros p q. unfold q_normalize. destruct (normalized p) eqn:F; [congruence| ].
    destruct (negb _); intros E; [injection E as <-; reflexivity|discriminate].
  - intros theta v q. unfold q_rotation. destruct (v3_normalize v) as [[u| ]| ]; cbn; intros E; try discriminate.
    injection E as <-. reflexivity.
  - intros p. apply N.
  - intros v E. unfold q_rotation_norm_encoded. rewrite E. reflexivity.
  - intros m. unfold get_parts. destruct (rotation_to_euler _) as [[? ?] ?]. reflexivity.
Qed.

(** arithmetic forgets: its results are measured again by normalize() *)
Lemma c75_quat_unflagged : forall (p q : Q) s v,
  normalized (q_add p q) = false /\ normalized (q_sub p q) = false /\ normalized (q_neg p) = false
  /\ normalized (q_mul p q) = false /\ normalized (q_scale p s) = false /\ normalized (q_div_s p s) = false
  /\ normalized (q_conj p) = false /\ normalized (q_derivative p v) = false
  /\ normalized (q_ln p) = false /\ normalized (q_new_real s : Q) = false
  /\ normalized (q_new_imag v : Q) = false /\ normalized (q_zero : Q) = false
  /\ (forall r, q_inverse p = Some r -> normalized r = false)
  /\ (forall r, q_div p q = Ok r -> normalized r = false)
  /\ (forall m, normalized (q_from_rotation m : Q) = false)
  /\ (forall t, (one <=? abs (q_dot p q)) = false -> normalized (q_slerp p q t) = false).
Proof.
  intros p q s v. repeat match goal with |- _ /\ _ => split end; try reflexivity.
  - unfold q_ln. destruct (q_normalize_a p). now destruct (ltb _ _).
  - intros r. unfold q_inverse. destruct (negb (normalized p)).
    + destruct (negb _); intros E; [injection E as <-; reflexivity|discriminate].
    + intros E. injection E as <-. reflexivity.
  - intros r. unfold q_div. destruct (q_inverse q); cbn; intros E; [injection E as <-; reflexivity|discriminate].
  - intros m. unfold q_from_rotation.
    repeat match goal with |- context [if ?b then _ else _] => destruct b end; reflexivity.
  - intros t L. unfold q_slerp. rewrite L.
    repeat match goal with |- context [if ?b then _ else _] => destruct b; cbv beta iota end; reflexivity.
Qed.

(** constructors of unit dual quaternions are trusted *)
Lemma c75_dual_flagged :
  dq_normalized (dq_one : DQ) = true
  /\ (forall q : Q, dq_normalized (dq_new_from_rotation q) = true)
  /\ (forall v, dq_normalized (dq_new_from_point v : DQ) = true)
  /\ (forall v, dq_normalized (dq_new_from_translation v : DQ) = true)
  /\ (forall m, dq_normalized (dq_new_from_rotation_matrix m : DQ) = true)
  /\ (forall (q : Q) v a, dq_new_from_rot_trans q v = Ok a -> dq_normalized a = true)
  /\ (forall m (a : DQ), dq_new_from_homogeneous m = Ok a -> dq_normalized a = true)
  /\ (forall a b : DQ, dq_normalize a = Some b -> dq_normalized b = true).
Proof.
  assert (N : forall (q : Q) v a, dq_new_from_rot_trans q v = Ok a -> dq_normalized a = true).
  { intros q v a. unfold dq_new_from_rot_trans. destruct (q_normalize q); cbn [unwrap bind]; intros E; [ |discriminate].
    injection E as <-. reflexivity. }
  repeat split; try exact N.
  - intros m a. unfold dq_new_from_homogeneous. destruct (get_parts_raw m) as [r p].
    destruct (q_normalize (q_from_rotation r)); cbn [unwrap bind]; [apply N|discriminate].
  - intros a b. unfold dq_normalize. destruct (dq_normalized a) eqn:F; [congruence| ].
    destruct (negb _); intros E; [injection E as <-; reflexivity|discriminate].
Qed.

(** arithmetic forgets; so do new_from_array and new_from_screw_parameters; pow
    keeps the flag only for (nearly) pure translations *)
Lemma c75_dual_unflagged : forall (a b : DQ) (p q : Q) (u v : V4 T) (l m : V3 T) (w : arr T 7) (s t : T),
  dq_normalized (dq_new p q) = false /\ dq_normalized (dq_zero : DQ) = false
  /\ dq_normalized (dq_add a b) = false /\ dq_normalized (dq_sub a b) = false
  /\ dq_normalized (dq_neg a) = false /\ dq_normalized (dq_mul a b) = false
  /\ dq_normalized (dq_scale a s) = false /\ dq_normalized (dq_conj a) = false
  /\ dq_normalized (dq_conj_as_dual a) = false /\ dq_normalized (dq_conj_combined a) = false
  /\ dq_normalized (dq_norm a) = false /\ dq_normalized (dq_new_from_vecs u v) = false
  /\ dq_normalized (dq_new_from_array w) = false
  /\ dq_normalized (dq_new_from_screw_parameters l m s t) = false
  /\ dq_normalized (dq_pow a s) = nearly_zero ((one + one) * facos (q_real (dq_real a)))
  /\ (forall c, dq_div a b = Ok c -> dq_normalized c = false)
  /\ (forall c, dq_inverse a = Ok c -> dq_normalized c = false)
  /\ (forall c, dq_screw_lerp a b s = Ok c -> dq_normalized c = false).
Proof.
  intros a b p q u v l m w s t. repeat match goal with |- _ /\ _ => split end; try reflexivity.
  - unfold dq_pow. cbv zeta. unfold sin_cos. now destruct (nearly_zero _).
  - intros c. unfold dq_div. destruct (q_div _ _); cbn [bind]; [ |discriminate].
    destruct (q_div _ _); cbn [bind]; [ |discriminate]. intros E. injection E as <-. reflexivity.
  - intros c. unfold dq_inverse. destruct (dq_normalized a); [intros E; injection E as <-; reflexivity| ].
    destruct (q_inverse _); cbn [unwrap bind]; [ |discriminate]. intros E. injection E as <-. reflexivity.
  - intros c. unfold dq_screw_lerp. cbv zeta. destruct (dq_inverse _); cbn [bind]; [ |discriminate].
    intros E. injection E as <-. reflexivity.
Qed.

End AnyScalar.

(** the wish "log() is defined (Some) on every unit dual quaternion" fails: the
    product of two rotations has none *)
#[local] Existing Instance f64_consts.
Lemma c75_log_refuted : exists a b : DualQuaternion R,
  dq_log a <> Ok None /\ dq_log b <> Ok None /\ dq_log (dq_mul a b) = Ok None.
Proof.
  exists (dq_new_from_rotation (q_new_from 0 1 0 0)%R), (dq_new_from_rotation (q_new_from 0 0 1 0)%R).
  split; [ |split; [ |apply c75_dual_untrusted; reflexivity]];
    apply c75_dual_trusted; reflexivity.
Qed.

(** ** Cases *)
Example C75_case_point : forall v : V3 R,
  dq_is_normalized (dq_new_from_point v) = true /\ dq_normalize (dq_new_from_point v) = Some (dq_new_from_point v).
Proof. intros v. split; apply c75_dual_trusted; apply c75_dual_flagged. Qed.
Example C75_case_trusted_wrong : q_inverse (mkQ 2 [| 0; 0; 0 |] true : Quaternion R)%R
  = Some (q_new 2 [| - 0; - 0; - 0 |])%R.
Proof. reflexivity. Qed.
Example C75_case_untrusted : dq_log (dq_mul (dq_one : DualQuaternion R) dq_one) = Ok None.
Proof. apply c75_dual_untrusted. apply c75_dual_unflagged; try exact (0%R); try exact q_one;
  repeat split; exact 0%R. Qed.

Print Assumptions c75_quat_trusted.
Print Assumptions c75_dual_trusted.
Print Assumptions c75_dual_untrusted.
Print Assumptions c75_quat_flagged.
Print Assumptions c75_quat_unflagged.
Print Assumptions c75_dual_flagged.
Print Assumptions c75_dual_unflagged.
Print Assumptions c75_log_refuted.
