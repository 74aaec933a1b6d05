(** * PropsFloatRotH: the tests for rotations on floats (C88) *)

From Coq Require Import List Arith ZArith Reals Bool Lra Lia.
From Flocq Require Import Core Relative Sterbenz IEEE754.BinarySingleNaN.
From Verif Require Import Base Scalar Vec Mat2 Mat3 Mat4 Mat5 Mat6 Slices MatLoops MatOps Quat Transf RingDet Spec LoopFacts Entries InstZ InstR RFacts ProofsRing ProofsQuat InstF FloatFacts ProofsFloat ProofsFloat2 RelFacts ProofsFloatErr ProofsFloatNorm ProofsFloatRot.
From Verif Require Import ProofsFloatRotH.
(** Concrete cases meeting the hypotheses: the Examples of ProofsFloatRotH.v and of Cases.v. *)
Local Open Scope R_scope.

Section F.
Context {prec emax : Z} {Hp : Prec_gt_0 prec} {He : Prec_lt_emax prec emax} {O : FOracle (binary_float prec emax)}.
Notation fl := (binary_float prec emax).
Notation emin := (3 - emax - prec)%Z.
Notation fe := (FLT_exp emin prec).
Notation rnd := (round radix2 fe ZnearestE).
Notation uro := (uro (prec := prec)).
Notation eta := (eta (prec := prec) (emax := emax)).
#[local] Existing Instance bdz_Num.
Hypothesis Hp11 : (11 <= prec)%Z.
Hypothesis He4 : (4 * prec <= emax)%Z.

(** a number within the tolerance of one is accepted; an accepted number is within three tolerances of one *)
Theorem C88_nearly_one_accepts : forall x e : fl, is_finite x = true -> is_finite e = true -> Rabs (B2R x - 1) <= / 2 -> uro <= B2R e ->
  Rabs (B2R x - 1) <= B2R e -> nearly_equal x one e = true.
Proof. exact (c88_nearly_one_accepts Hp11 He4). Qed.
Print Assumptions C88_nearly_one_accepts.

Theorem C88_nearly_one_sound : forall x e : fl, is_finite x = true -> is_finite e = true -> Rabs (B2R x) <= bpow radix2 (emax - 2) -> uro <= B2R e <= / 8 ->
  nearly_equal x one e = true -> Rabs (B2R x - 1) <= 3 * B2R e.
Proof. exact (c88_nearly_one_sound Hp11 He4). Qed.
Print Assumptions C88_nearly_one_sound.

(** ** [is_rotation_h] accepts the matrices of nearly unit quaternions *)
Theorem C88_is_rotation_h_unit : forall (b : Quaternion fl) (p : V3 fl) dl, dl <= / 100 ->
  (forall k, (k < 4)%nat -> is_finite (qcomp k b) = true) -> Rabs (sq_sum 4 (fun k => B2R (qcomp k b)) - 1) <= dl ->
  (forall k, (k < 3)%nat -> is_finite (vfun p k) = true /\ Rabs (B2R (vfun p k)) <= bpow radix2 (emax - 20)) ->
  is_finite (lit_1em6 : fl) = true -> 18000 * uro + 620 / 100 * dl <= B2R (lit_1em6 : fl) <= / 2 ->
  is_rotation_h (homogeneous_from_quaternion b p) = true.
Proof. exact (c88_is_rotation_h_unit Hp11 He4). Qed.
Print Assumptions C88_is_rotation_h_unit.

Theorem C88_is_rotation_h_normalized : forall (a b : Quaternion fl) (p : V3 fl), normalized a = false -> is_finite (q_norm2 a) = true -> q_normalize a = Some b ->
  (forall k, (k < 3)%nat -> is_finite (vfun p k) = true /\ Rabs (B2R (vfun p k)) <= bpow radix2 (emax - 20)) ->
  is_finite (lit_1em6 : fl) = true -> 18056 * uro <= B2R (lit_1em6 : fl) <= / 2 ->
  is_rotation_h (homogeneous_from_quaternion b p) = true.
Proof. exact (c88_is_rotation_h_normalized Hp11 He4). Qed.
Print Assumptions C88_is_rotation_h_normalized.

(** what [is_rotation_h] answers [true] for: the computed determinants of the matrix and of its square are within three tolerances of one *)
Theorem C88_is_rotation_h_sound : forall x : M44 fl, is_finite (m44_det x) = true -> Rabs (B2R (m44_det x)) <= bpow radix2 (emax - 2) ->
  is_finite (m44_det (m44_mul x x)) = true -> Rabs (B2R (m44_det (m44_mul x x))) <= bpow radix2 (emax - 2) ->
  is_finite (lit_1em6 : fl) = true -> uro <= B2R (lit_1em6 : fl) <= / 8 -> is_rotation_h x = true ->
  Rabs (B2R (m44_det x) - 1) <= 3 * B2R (lit_1em6 : fl) /\ Rabs (B2R (m44_det (m44_mul x x)) - 1) <= 3 * B2R (lit_1em6 : fl).
Proof. exact (c88_is_rotation_h_sound Hp11 He4). Qed.
Print Assumptions C88_is_rotation_h_sound.

End F.
#[local] Instance prec53 : Prec_gt_0 53 := eq_refl.
#[local] Instance emax1024 : Prec_lt_emax 53 1024 := eq_refl.
#[local] Notation f64 := (binary_float 53 1024).

(** the quarter turn about z: the matrix of the normalized quaternion does not pass [is_rotation] *)
Theorem C88_is_rotation_refuted : forall O : FOracle f64, exists a b : Quaternion f64,
  normalized a = false /\ is_finite (q_norm2 a) = true /\ q_normalize a = Some b /\ is_rotation (q_to_rotation b) = false.
Proof. exact c88_is_rotation_refuted. Qed.
Print Assumptions C88_is_rotation_refuted.

(** a scaled shear has determinant one: it passes [is_rotation_h] and [is_rotation] and is not a rotation *)
Theorem C88_shear_refuted : forall O : FOracle f64, let r := [| [| fofZ 2; fofZ 7; fofZ 0 |]; [| fofZ 0; fofZ 1; fofZ 0 |]; [| fofZ 0; fofZ 0; Bdiv mode_NE (fofZ 1) (fofZ 2) |] |] : M33 f64 in
  is_rotation r = true /\ is_rotation_h (homogeneous_from_rotation r [| fofZ 0; fofZ 0; fofZ 0 |]) = true /\
  B2R (mfun r 0 0) * B2R (mfun r 0 0) + B2R (mfun r 1 0) * B2R (mfun r 1 0) + B2R (mfun r 2 0) * B2R (mfun r 2 0) = 4.
Proof. exact c88_shear_refuted. Qed.
Print Assumptions C88_shear_refuted.
#[local] Instance prec24 : Prec_gt_0 24 := eq_refl.
#[local] Instance emax128 : Prec_lt_emax 24 128 := eq_refl.
#[local] Notation f32 := (binary_float 24 128).

Theorem C88_is_rotation_h_f32_refuted : forall O : FOracle f32, (lit_1em6 : f32) = Bdiv mode_NE (fofZ 1) (fofZ 1000000) ->
  exists a b : Quaternion f32, normalized a = false /\ is_finite (q_norm2 a) = true /\ q_normalize a = Some b /\
  is_rotation_h (homogeneous_from_quaternion b [| fofZ 0; fofZ 0; fofZ 0 |]) = false.
Proof. exact c88_is_rotation_h_f32_refuted. Qed.
Print Assumptions C88_is_rotation_h_f32_refuted.
