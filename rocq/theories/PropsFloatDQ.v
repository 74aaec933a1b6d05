(** * PropsFloatDQ: rigid motions as dual quaternions on floats (C94) *)

From Coq Require Import List Arith ZArith Reals Bool Lra Lia.
From Flocq Require Import Core Relative Sterbenz Mult_error IEEE754.BinarySingleNaN.
From Verif Require Import Base Scalar Vec Mat2 Mat3 Mat4 Mat5 Mat6 Slices MatLoops MatOps Quat Transf DualQuat RingDet Spec LoopFacts Entries InstZ InstR RFacts LUFacts QRFacts ProofsRing ProofsQuat InstF FloatFacts ProofsFloat ProofsFloat2 ProofsFloatErr ProofsFloatInv ProofsFloatNorm ProofsFloatRot ProofsFloatDrift.
From Verif Require Import ProofsFloatDQ.
(** Concrete cases meeting the hypotheses: the Examples of ProofsFloatDQ.v and of Cases.v. *)
Local Open Scope R_scope.

Section F.
Context {prec emax : Z} {Hp : Prec_gt_0 prec} {He : Prec_lt_emax prec emax} {O : FOracle (binary_float prec emax)}.
Notation fl := (binary_float prec emax).
Notation uro := (uro (prec := prec)).
Notation eta := (eta (prec := prec) (emax := emax)).
Hypothesis Hp11 : (11 <= prec)%Z.
Hypothesis He4 : (4 * prec <= emax)%Z.

Theorem C94_translation : forall dl rot (t : V3 fl) D, dq_new_from_rot_trans rot t = Ok D -> near_unit dl (dq_real D) -> dl <= / 220 ->
  (forall i, (i < 3)%nat -> is_finite (vfun t i) = true /\ Rabs (B2R (vfun t i)) <= bpow radix2 (emax - 12)) ->
  (forall i, (i < 3)%nat -> is_finite (vfun (dq_get_translation D) i) = true) /\
  nrm 3 (fun i => B2R (vfun (dq_get_translation D) i) - B2R (vfun t i)) <= (201 / 100 * dl + 17 * uro) * nrm 3 (fun i => B2R (vfun t i)) + 35 * eta.
Proof. exact (c94_translation Hp11 He4). Qed.
Print Assumptions C94_translation.

Theorem C94_translation_array : forall dl (w x y z : fl) (t0 t1 t2 : fl), let t := [| t0; t1; t2 |] in let D := dq_new_from_array [| w; x; y; z; t0; t1; t2 |] in
  near_unit dl (q_new_from w x y z) -> dl <= / 220 ->
  (forall i, (i < 3)%nat -> is_finite (vfun t i) = true /\ Rabs (B2R (vfun t i)) <= bpow radix2 (emax - 12)) ->
  dq_real D = q_new_from w x y z /\ (forall i, (i < 3)%nat -> is_finite (vfun (dq_get_translation D) i) = true) /\
  nrm 3 (fun i => B2R (vfun (dq_get_translation D) i) - B2R (vfun t i)) <= (201 / 100 * dl + 17 * uro) * nrm 3 (fun i => B2R (vfun t i)) + 35 * eta.
Proof. exact (c94_translation_array Hp11 He4). Qed.
Print Assumptions C94_translation_array.

(** a rotation that is normalized on the way *)
Theorem C94_translation_normalized : forall rot (t : V3 fl) D, dq_new_from_rot_trans rot t = Ok D -> normalized rot = false -> is_finite (q_norm2 rot) = true ->
  (forall i, (i < 3)%nat -> is_finite (vfun t i) = true /\ Rabs (B2R (vfun t i)) <= bpow radix2 (emax - 12)) ->
  (forall i, (i < 3)%nat -> is_finite (vfun (dq_get_translation D) i) = true) /\
  nrm 3 (fun i => B2R (vfun (dq_get_translation D) i) - B2R (vfun t i)) <= 36 * uro * nrm 3 (fun i => B2R (vfun t i)) + 35 * eta.
Proof. exact (c94_translation_normalized Hp11 He4). Qed.
Print Assumptions C94_translation_normalized.

(** composing two motions adds the rotated second translation to the first *)
Theorem C94_compose : forall dl rot1 (t1 : V3 fl) D1 rot2 (t2 : V3 fl) D2, dq_new_from_rot_trans rot1 t1 = Ok D1 -> dq_new_from_rot_trans rot2 t2 = Ok D2 ->
  near_unit dl (dq_real D1) -> near_unit dl (dq_real D2) -> dl <= / 220 ->
  (forall i, (i < 3)%nat -> is_finite (vfun t1 i) = true /\ Rabs (B2R (vfun t1 i)) <= bpow radix2 (emax - 12)) ->
  (forall i, (i < 3)%nat -> is_finite (vfun t2 i) = true /\ Rabs (B2R (vfun t2 i)) <= bpow radix2 (emax - 12)) ->
  let g := dq_get_translation (dq_mul D1 D2) in
  let V1 := fun i => B2R (vfun t1 i) in let V2 := fun i => B2R (vfun t2 i) in
  (forall i, (i < 3)%nat -> is_finite (vfun g i) = true) /\
  nrm 3 (fun i => B2R (vfun g i) - (sand (qR (dq_real D1)) V2 i + V1 i)) <= (41 / 10 * dl + 35 * uro) * (nrm 3 V1 + nrm 3 V2) + 100 * eta.
Proof. exact (c94_compose Hp11 He4). Qed.
Print Assumptions C94_compose.

Theorem C94_inverse : forall dl rot (t : V3 fl) D, dq_new_from_rot_trans rot t = Ok D -> near_unit dl (dq_real D) -> dl <= / 220 ->
  (forall i, (i < 3)%nat -> is_finite (vfun t i) = true /\ Rabs (B2R (vfun t i)) <= bpow radix2 (emax - 12)) ->
  exists I, dq_inverse D = Ok I /\ forall P, P = dq_mul D I \/ P = dq_mul I D ->
  (forall k, (k < 4)%nat -> is_finite (qcomp k (dq_real P)) = true /\ is_finite (qcomp k (dq_dual P)) = true) /\
  nrm 4 (fun k => qR (dq_real P) k - e0 k) <= 201 / 100 * dl + 82 / 10 * uro /\
  nrm 4 (qR (dq_dual P)) <= 18 * uro * nrm 3 (fun i => B2R (vfun t i)) + 44 * eta.
Proof. exact (c94_inverse Hp11 He4). Qed.
Print Assumptions C94_inverse.

Theorem C94_pure_translation : forall t : V3 fl, (forall i, (i < 3)%nat -> is_finite (vfun t i) = true) ->
  forall i, (i < 3)%nat -> is_finite (vfun (dq_get_translation (dq_new_from_translation t)) i) = true /\
  Rabs (B2R (vfun (dq_get_translation (dq_new_from_translation t)) i) - B2R (vfun t i)) <= 2 * eta /\
  (bpow radix2 (4 - emax) <= Rabs (B2R (vfun t i)) -> B2R (vfun (dq_get_translation (dq_new_from_translation t)) i) = B2R (vfun t i)).
Proof. exact (c94_pure_translation Hp11 He4). Qed.
Print Assumptions C94_pure_translation.

End F.
#[local] Instance prec53 : Prec_gt_0 53 := eq_refl.
#[local] Instance emax1024 : Prec_lt_emax 53 1024 := eq_refl.
#[local] Notation f64 := (binary_float 53 1024).

(** [is_normalized] may reject the product of two motions made by [new_from_rot_trans] *)
Theorem C94_is_normalized_refuted : forall O : FOracle f64, exists (rot1 rot2 : Quaternion f64) (t : V3 f64) (D1 D2 : DualQuaternion f64),
  dq_new_from_rot_trans rot1 t = Ok D1 /\ dq_new_from_rot_trans rot2 t = Ok D2 /\ dq_is_normalized D1 = true /\ dq_is_normalized D2 = true /\
  dq_is_normalized (dq_new (dq_real D1) (dq_dual D1)) = true /\ dq_is_normalized (dq_new (dq_real D2) (dq_dual D2)) = true /\ dq_is_normalized (dq_mul D1 D2) = false.
Proof. exact c94_is_normalized_refuted. Qed.
Print Assumptions C94_is_normalized_refuted.
