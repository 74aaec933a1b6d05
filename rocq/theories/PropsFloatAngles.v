(** * PropsFloatAngles: rotations built from angles on floats (C96) *)

From Coq Require Import List Arith ZArith Reals Bool Lra Lia.
From Flocq Require Import Core Relative Sterbenz Mult_error IEEE754.BinarySingleNaN.
From Verif Require Import Base Scalar Vec Mat2 Mat3 Mat4 Mat5 Mat6 Slices MatLoops MatOps Quat Transf DualQuat RingDet Spec LoopFacts Entries InstZ InstR RFacts LUFacts QRFacts ProofsRing ProofsQuat ProofsRot ProofsRigid InstF FloatFacts ProofsFloat ProofsFloat2 ProofsFloatErr ProofsFloatInv ProofsFloatNorm ProofsFloatRot ProofsFloatDrift ProofsFloatRigid ProofsFloatDQ ProofsFloatFromRot ProofsFloatQR ExpSeries ProofsExp.
From Verif Require Import ProofsFloatAngles.
(** Concrete cases meeting the hypotheses: the Examples of ProofsFloatAngles.v and of Cases.v. *)
Local Open Scope R_scope.

Section F.
Context {prec emax : Z} {Hp : Prec_gt_0 prec} {He : Prec_lt_emax prec emax} {O : FOracle (binary_float prec emax)}.
Notation fl := (binary_float prec emax).
Notation uro := (uro (prec := prec)).
Notation eta := (eta (prec := prec) (emax := emax)).
Hypothesis Hp11 : (11 <= prec)%Z.
Hypothesis He4 : (4 * prec <= emax)%Z.

(** ** products of float matrices close to rotations *)
Theorem C96_compose : forall (m m' : M33 fl) (r r' : M33 R) E E', SO3 r -> SO3 r' -> close3 E m r -> close3 E' m' r' -> E <= / 100 -> E' <= / 100 ->
  close3 (E + E' + E * E' + 93 / 10 * uro) (m33_mul m m') (m33_mul r r').
Proof. exact (c96_compose Hp11 He4). Qed.
Print Assumptions C96_compose.

(** any number of products: the error grows linearly *)
Theorem C96_product : forall E (ms : list (M33 fl)) (rs : list (M33 R)) (m : M33 fl) (r : M33 R), SO3 r -> close3 E m r ->
  Forall2 (fun m r => SO3 r /\ close3 E m r) ms rs -> INR (S (length ms)) * (102 / 100 * E + 93 / 10 * uro) <= / 100 ->
  SO3 (fold_left m33_mul rs r) /\
  close3 (E + INR (length ms) * (101 / 100 * E + 93 / 10 * uro)) (fold_left m33_mul ms m) (fold_left m33_mul rs r).
Proof. exact (c96_product Hp11 He4). Qed.
Print Assumptions C96_product.

(** such a matrix is accepted by the theorems about nearly orthogonal matrices *)
Theorem C96_near_rot : forall E m r, SO3 r -> close3 E m r -> near_rot (2 * E + E * E) m.
Proof. exact c96_near_rot. Qed.
Print Assumptions C96_near_rot.

Theorem C96_elementary : forall e (x : fl), trig_ok e x ->
  close3 (2 * e) (rotx x) (rodrigues ex (B2R x)) /\ close3 (2 * e) (roty x) (rodrigues ey (B2R x)) /\ close3 (2 * e) (rotz x) (rodrigues ez (B2R x)).
Proof. exact c96_elementary. Qed.
Print Assumptions C96_elementary.

(** rotations from Euler angles, all sequences but the one the code gets wrong (C30) *)
Theorem C96_euler_to_rotation : forall e (y p r : fl) s, trig_ok e y -> trig_ok e p -> trig_ok e r -> e <= / 800 -> s <> Some YZX ->
  close3 (61 / 10 * e + 187 / 10 * uro) (euler_to_rotation y p r s) (euler_product s (B2R y) (B2R p) (B2R r)).
Proof. exact (c96_euler_to_rotation Hp11 He4). Qed.
Print Assumptions C96_euler_to_rotation.

Theorem C96_from_euler_angles : forall e (y p r : fl), is_finite y = true -> is_finite p = true -> is_finite r = true ->
  trig_ok e (div y (add one one)) -> trig_ok e (div p (add one one)) -> trig_ok e (div r (add one one)) -> e <= / 250 ->
  exists A : Quaternion R, unit_quat A /\ q_to_rotation A = euler_product None (B2R y) (B2R p) (B2R r) /\
  close4 (43 / 10 * e + 45 / 10 * uro) (q_from_euler_angles y p r) A.
Proof. exact (c96_from_euler_angles Hp11 He4). Qed.
Print Assumptions C96_from_euler_angles.

(** what the distance says about unit length and about the matrix *)
Theorem C96_quaternion_matrix : forall E (a : Quaternion fl) (A : Quaternion R), unit_quat A -> close4 E a A -> E <= / 220 ->
  near_unit E a /\ forall i j, (i < 3)%nat -> (j < 3)%nat -> is_finite (mfun (q_to_rotation a) i j) = true /\
  Rabs (B2R (mfun (q_to_rotation a) i j) - mfun (q_to_rotation A) i j) <= 201 / 100 * E + 41 / 10 * uro.
Proof. exact (c96_quaternion_matrix Hp11 He4). Qed.
Print Assumptions C96_quaternion_matrix.

(** the two ways from angles to a rotation agree *)
Theorem C96_euler_agree : forall e (y p r : fl), is_finite y = true -> is_finite p = true -> is_finite r = true ->
  trig_ok e y -> trig_ok e p -> trig_ok e r ->
  trig_ok e (div y (add one one)) -> trig_ok e (div p (add one one)) -> trig_ok e (div r (add one one)) -> e <= / 2000 ->
  forall i j, (i < 3)%nat -> (j < 3)%nat ->
  Rabs (B2R (mfun (q_to_rotation (q_from_euler_angles y p r)) i j) - B2R (mfun (euler_to_rotation y p r None) i j)) <= 15 * e + 32 * uro.
Proof. exact (c96_euler_agree Hp11 He4). Qed.
Print Assumptions C96_euler_agree.

Theorem C96_rotation : forall e (theta : fl) (v : V3 fl), is_finite theta = true -> norm_ok v -> trig_ok e (div theta (add one one)) -> e <= / 250 ->
  exists (q : Quaternion fl) (A : Quaternion R), q_rotation theta v = Ok q /\ normalized q = true /\
  unit_quat A /\ q_to_rotation A = rodrigues (dir3 v) (B2R theta) /\ close4 (142 / 100 * e + 5 * uro) q A.
Proof. exact (c96_rotation Hp11 He4). Qed.
Print Assumptions C96_rotation.

Theorem C96_axis_angle : forall e d (omega : V3 fl) (theta : fl) (a : V3 R), v3_dot a a = 1 ->
  (forall k, (k < 3)%nat -> is_finite (vfun omega k) = true) ->
  sqrt ((B2R (vfun omega 0) - vfun a 0) ^ 2 + (B2R (vfun omega 1) - vfun a 1) ^ 2 + (B2R (vfun omega 2) - vfun a 2) ^ 2) <= d -> d <= / 150 ->
  trig_ok e theta -> e <= / 250 ->
  close3 (29 / 10 * e + 10 * d + 26 * uro) (rotation_from_axis_angle omega theta) (rodrigues a (B2R theta)).
Proof. exact (c96_axis_angle Hp11 He4). Qed.
Print Assumptions C96_axis_angle.

(** with a normalized float direction *)
Theorem C96_axis_angle_direction : forall e (v : V3 fl) (theta : fl), norm_ok v -> trig_ok e theta -> e <= / 250 ->
  exists w, v3_normalize v = Ok (Some w) /\ close3 (29 / 10 * e + 66 * uro) (rotation_from_axis_angle w theta) (rodrigues (dir3 v) (B2R theta)).
Proof. exact (c96_axis_angle_direction Hp11 He4). Qed.
Print Assumptions C96_axis_angle_direction.

(** ** the exponential *)
Theorem C96_exponential : forall e (v : V3 fl), norm_ok v -> nearly_zero (v3_norm2 v) = false -> trig_ok e (v3_norm2 v) -> e + 28 / 10 * uro * len3 v <= / 250 ->
  exists (m : M33 fl) (r : M33 R), matrix_exponential (skew_from_vec v) = Ok m /\
  is_mexp 3 (mfun (skew_from_vec [| B2R (vfun v 0); B2R (vfun v 1); B2R (vfun v 2) |])) (mfun r) /\ SO3 r /\
  close3 (29 / 10 * e + 82 / 10 * uro * len3 v + 66 * uro) m r.
Proof. exact (c96_exponential Hp11 He4). Qed.
Print Assumptions C96_exponential.

Theorem C96_rotation_norm_encoded : forall e (v : V3 fl), norm_ok v -> nearly_zero (v3_norm2 v) = false -> trig_ok e (div (v3_norm2 v) lit_2) -> e + 14 / 10 * uro * len3 v <= / 300 ->
  exists A : Quaternion R, normalized (q_rotation_norm_encoded v) = true /\
  unit_quat A /\ q_to_rotation A = rodrigues (dir3 v) (len3 v) /\ close4 (142 / 100 * e + 2 * uro * len3 v + 5 * uro) (q_rotation_norm_encoded v) A.
Proof. exact (c96_rotation_norm_encoded Hp11 He4). Qed.
Print Assumptions C96_rotation_norm_encoded.

(** the quaternion and the matrix of the same axis and angle agree *)
Theorem C96_rotation_agree : forall e (theta : fl) (v : V3 fl), is_finite theta = true -> norm_ok v -> trig_ok e theta -> trig_ok e (div theta (add one one)) -> e <= / 1000 ->
  exists (q : Quaternion fl) (w : V3 fl), q_rotation theta v = Ok q /\ v3_normalize v = Ok (Some w) /\
  forall i j, (i < 3)%nat -> (j < 3)%nat -> Rabs (B2R (mfun (q_to_rotation q) i j) - B2R (mfun (rotation_from_axis_angle w theta) i j)) <= 6 * e + 81 * uro.
Proof. exact (c96_rotation_agree Hp11 He4). Qed.
Print Assumptions C96_rotation_agree.

End F.
