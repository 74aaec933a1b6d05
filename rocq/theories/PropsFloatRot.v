(** * PropsFloatRot: rotations on floats, with underflow (C87) *)

From Coq Require Import List Arith ZArith Reals Bool Lra Lia.
From Flocq Require Import Core Relative Plus_error IEEE754.BinarySingleNaN.
From Verif Require Import Base Scalar Vec Mat2 Mat3 Mat4 Mat5 Mat6 Slices MatLoops MatOps Quat Transf RingDet Spec LoopFacts Entries InstZ InstR InstF FloatFacts ProofsQuat ProofsFloat ProofsFloat2 ProofsFloatErr ProofsFloatNorm.
From Verif Require Import ProofsFloatRot.
(** Concrete cases meeting the hypotheses: the Examples of ProofsFloatRot.v and of Cases.v. *)
Local Open Scope R_scope.

Section F.
Context {prec emax : Z} {Hp : Prec_gt_0 prec} {He : Prec_lt_emax prec emax} {O : FOracle (binary_float prec emax)}.
Notation fl := (binary_float prec emax).
Notation emin := (3 - emax - prec)%Z.
Notation fe := (FLT_exp emin prec).
Notation rnd := (round radix2 fe ZnearestE).
Notation uro := (uro (prec := prec)).
Notation eta := (eta (prec := prec) (emax := emax)).
#[local] Existing Instance bdu_Num.

(** cross product, any finite result *)
Theorem C87_cross_error : forall (a b : V3 fl) i, (i < 3)%nat -> is_finite (vfun (v3_cross a b) i) = true ->
  let A := fun i => B2R (vfun a i) in let B := fun i => B2R (vfun b i) in
  let j := Nat.modulo (i + 1) 3 in let k := Nat.modulo (i + 2) 3 in
  Rabs (B2R (vfun (v3_cross a b) i) - crossR A B i)
  <= ((1 + uro) ^ 2 - 1) * (Rabs (A j * B k) + Rabs (A k * B j)) + (1 + uro) ^ 2 * (2 * eta).
Proof. exact c87_cross_error. Qed.
Print Assumptions C87_cross_error.

(** product of quaternions *)
Theorem C87_q_mul_error : forall (a b : Quaternion fl) c, (c < 4)%nat -> is_finite (qcomp c (q_mul a b)) = true ->
  let A := fun k => B2R (qcomp k a) in let B := fun k => B2R (qcomp k b) in
  Rabs (B2R (qcomp c (q_mul a b)) - comp4 c (hamilton (h4 A) (h4 B))) <= ((1 + uro) ^ 4 - 1) * hmag A B c + (1 + uro) ^ 4 * (4 * eta).
Proof. exact c87_q_mul_error. Qed.
Print Assumptions C87_q_mul_error.

(** rotation of a vector *)
Theorem C87_q_mul_v_error : forall (a : Quaternion fl) (v : V3 fl) i, (i < 3)%nat -> is_finite (vfun (q_mul_v a v) i) = true ->
  let w := B2R (q0 a) in let u := fun k => B2R (vfun (Quat.q a) k) in let V := fun k => B2R (vfun v k) in
  Rabs (B2R (vfun (q_mul_v a v) i) - rotR w u V i)
  <= ((1 + uro) ^ 7 - 1) * (mag3 V * (1 + 2 * (Rabs w + mag3 u) ^ 2)) + (1 + uro) ^ 7 * (((Rabs w + mag3 u) * (2 + mag3 V) + 3) * eta).
Proof. exact c87_q_mul_v_error. Qed.
Print Assumptions C87_q_mul_v_error.

Theorem C87_to_rotation_error : forall (a : Quaternion fl) i j, (i < 3)%nat -> (j < 3)%nat -> is_finite (mfun (q_to_rotation a) i j) = true ->
  let A := fun k => B2R (qcomp k a) in
  Rabs (B2R (mfun (q_to_rotation a) i j) - comp4 (S i) (hamilton (hamilton (h4 A) (e4 j)) (h4conj A)))
  <= ((1 + uro) ^ 4 - 1) * sq_sum 4 A + (1 + uro) ^ 4 * ((4 + Rabs (A 0%nat) + Rabs (A 1%nat) + Rabs (A 2%nat) + Rabs (A 3%nat)) * eta).
Proof. exact c87_to_rotation_error. Qed.
Print Assumptions C87_to_rotation_error.

Theorem C87_to_rotation_orthogonal : forall (a : Quaternion fl),
  (forall i j, (i < 3)%nat -> (j < 3)%nat -> is_finite (mfun (q_to_rotation a) i j) = true) ->
  let A := fun k => B2R (qcomp k a) in let X := fun i j => B2R (mfun (q_to_rotation a) i j) in
  let N := sq_sum 4 A in
  let e := ((1 + uro) ^ 4 - 1) * N + (1 + uro) ^ 4 * ((4 + Rabs (A 0%nat) + Rabs (A 1%nat) + Rabs (A 2%nat) + Rabs (A 3%nat)) * eta) in
  forall i j, (i < 3)%nat -> (j < 3)%nat ->
  Rabs (X 0%nat i * X 0%nat j + X 1%nat i * X 1%nat j + X 2%nat i * X 2%nat j - (if Nat.eqb i j then 1 else 0))
  <= Rabs (N ^ 2 - 1) + 3 * (2 * N * e + e * e).
Proof. exact c87_to_rotation_orthogonal. Qed.
Print Assumptions C87_to_rotation_orthogonal.
Hypothesis Hp11 : (11 <= prec)%Z.
Hypothesis He4 : (4 * prec <= emax)%Z.

Theorem C87_normalize : forall (a b : Quaternion fl), normalized a = false -> is_finite (q_norm2 a) = true -> q_normalize a = Some b ->
  let N := sqrt (sq_sum 4 (fun k => B2R (qcomp k a))) in let B := fun k => B2R (qcomp k b) in
  Rabs (sq_sum 4 B - 1) <= 9 * uro /\
  forall k, (k < 4)%nat -> is_finite (qcomp k b) = true /\ Rabs (B k - B2R (qcomp k a) / N) <= 5 * uro * Rabs (B2R (qcomp k a) / N) + eta.
Proof. exact (c87_normalize Hp11 He4). Qed.
Print Assumptions C87_normalize.

Theorem C87_unit_rotation : forall (b : Quaternion fl) dl, dl <= / 100 ->
  (forall k, (k < 4)%nat -> is_finite (qcomp k b) = true) -> Rabs (sq_sum 4 (fun k => B2R (qcomp k b)) - 1) <= dl ->
  let X := fun i j => B2R (mfun (q_to_rotation b) i j) in
  (forall i j, (i < 3)%nat -> (j < 3)%nat -> is_finite (mfun (q_to_rotation b) i j) = true) /\
  (forall i j, (i < 3)%nat -> (j < 3)%nat ->
    Rabs (X 0%nat i * X 0%nat j + X 1%nat i * X 1%nat j + X 2%nat i * X 2%nat j - (if Nat.eqb i j then 1 else 0)) <= 201 / 100 * dl + 25 * uro) /\
  is_finite (m33_det (q_to_rotation b)) = true /\ Rabs (B2R (m33_det (q_to_rotation b)) - 1) <= 304 / 100 * dl + 108 * uro.
Proof. exact (c87_unit_rotation Hp11 He4). Qed.
Print Assumptions C87_unit_rotation.

Theorem C87_rotate_length : forall (b : Quaternion fl) (v : V3 fl) dl, dl <= / 100 ->
  (forall k, (k < 4)%nat -> is_finite (qcomp k b) = true) -> Rabs (sq_sum 4 (fun k => B2R (qcomp k b)) - 1) <= dl ->
  (forall k, (k < 3)%nat -> is_finite (vfun v k) = true /\ Rabs (B2R (vfun v k)) <= bpow radix2 (emax - 9)) ->
  let n := sqrt (sq_sum 3 (fun k => B2R (vfun v k))) in
  (forall k, (k < 3)%nat -> is_finite (vfun (q_mul_v b v) k) = true) /\
  Rabs (sqrt (sq_sum 3 (fun k => B2R (vfun (q_mul_v b v) k))) - n) <= (206 / 100 * dl + 192 * uro) * n + 13 * eta.
Proof. exact (c87_rotate_length Hp11 He4). Qed.
Print Assumptions C87_rotate_length.

(** normalizing a quaternion that was not normalized gives a rotation, up to a few roundings *)
Theorem C87_normalized_rotation : forall (a b : Quaternion fl), normalized a = false -> is_finite (q_norm2 a) = true -> q_normalize a = Some b ->
  let X := fun i j => B2R (mfun (q_to_rotation b) i j) in
  (forall i j, (i < 3)%nat -> (j < 3)%nat -> is_finite (mfun (q_to_rotation b) i j) = true /\
    Rabs (X 0%nat i * X 0%nat j + X 1%nat i * X 1%nat j + X 2%nat i * X 2%nat j - (if Nat.eqb i j then 1 else 0)) <= 44 * uro) /\
  is_finite (m33_det (q_to_rotation b)) = true /\ Rabs (B2R (m33_det (q_to_rotation b)) - 1) <= 136 * uro /\
  (forall v : V3 fl, (forall k, (k < 3)%nat -> is_finite (vfun v k) = true /\ Rabs (B2R (vfun v k)) <= bpow radix2 (emax - 9)) ->
    let n := sqrt (sq_sum 3 (fun k => B2R (vfun v k))) in
    (forall k, (k < 3)%nat -> is_finite (vfun (q_mul_v b v) k) = true) /\
    Rabs (sqrt (sq_sum 3 (fun k => B2R (vfun (q_mul_v b v) k))) - n) <= 211 * uro * n + 13 * eta).
Proof. exact (c87_normalized_rotation Hp11 He4). Qed.
Print Assumptions C87_normalized_rotation.

End F.
