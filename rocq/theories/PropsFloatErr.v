(** * PropsFloatErr: rounding errors of determinants, cross products, quaternion products
    and rotations (C80) *)

From Coq Require Import List Arith ZArith Reals Bool Lra Lia.
From Flocq Require Import Core Relative IEEE754.BinarySingleNaN.
From Verif Require Import Base Scalar Vec Mat2 Mat3 Mat4 Mat5 Mat6 Slices MatLoops MatOps Quat RingDet Spec Entries DetEntries RelFacts InstZ InstR RFacts ProofsRing ProofsQuat InstF FloatFacts ProofsFloat ProofsPanic ProofsFloat2.
From Verif Require Import ProofsFloatErr.
(** Concrete cases meeting the hypotheses: the Examples of ProofsFloatErr.v and of Cases.v. *)
Local Open Scope R_scope.
#[local] Existing Instance bdg_Num.

Section F.
Context {prec emax : Z} {Hp : Prec_gt_0 prec} {He : Prec_lt_emax prec emax}.
Notation fl := (binary_float prec emax).
Notation emin := (3 - emax - prec)%Z.
Notation fe := (FLT_exp emin prec).
Notation rnd := (round radix2 fe ZnearestE).
Notation uro := (uro (prec := prec)).

(** the error of [det()]: no underflow when the entries are multiples of [2^q] with [2^(n q)] representable *)
Theorem C80_det_error : forall d (x : mat fl (dimn d)) q, (q <= 0)%Z -> (emin <= q * Z.of_nat (dimn d))%Z ->
  (forall i j, (i < dimn d)%nat -> (j < dimn d)%nat -> grid q (B2R (mfun x i j))) ->
  is_finite (d_det d x) = true ->
  let M := fun i j => B2R (mfun x i j) in
  Rabs (B2R (d_det d x) - ldet (dimn d) M) <= ((1 + uro) ^ det_depth d - 1) * lperm (dimn d) M.
Proof. exact c80_det_error. Qed.
Print Assumptions C80_det_error.

(** the same with the largest entry *)
Theorem C80_det_error_max : forall d (x : mat fl (dimn d)) q B, (q <= 0)%Z -> (emin <= q * Z.of_nat (dimn d))%Z ->
  (forall i j, (i < dimn d)%nat -> (j < dimn d)%nat -> grid q (B2R (mfun x i j)) /\ Rabs (B2R (mfun x i j)) <= B) ->
  is_finite (d_det d x) = true ->
  Rabs (B2R (d_det d x) - ldet (dimn d) (fun i j => B2R (mfun x i j)))
  <= ((1 + uro) ^ det_depth d - 1) * (INR (fact (dimn d)) * B ^ dimn d).
Proof. exact c80_det_error_max. Qed.
Print Assumptions C80_det_error_max.

(** the sign of a determinant larger than the error is right *)
Theorem C80_det_sign : forall d (x : mat fl (dimn d)) q, (q <= 0)%Z -> (emin <= q * Z.of_nat (dimn d))%Z ->
  (forall i j, (i < dimn d)%nat -> (j < dimn d)%nat -> grid q (B2R (mfun x i j))) ->
  is_finite (d_det d x) = true ->
  let M := fun i j => B2R (mfun x i j) in
  ((1 + uro) ^ det_depth d - 1) * lperm (dimn d) M < Rabs (ldet (dimn d) M) ->
  0 < B2R (d_det d x) * ldet (dimn d) M.
Proof. exact c80_det_sign. Qed.
Print Assumptions C80_det_sign.

(** the singularity gate of [inverse()] against the exact determinant *)
Theorem C80_inverse_gate {O : FOracle fl} : forall d (x : mat fl (dimn d)) q, (q <= 0)%Z -> (emin <= q * Z.of_nat (dimn d))%Z ->
  (forall i j, (i < dimn d)%nat -> (j < dimn d)%nat -> grid q (B2R (mfun x i j))) ->
  is_finite (d_det d x) = true ->
  let M := fun i j => B2R (mfun x i j) in
  let E := ((1 + uro) ^ det_depth d - 1) * lperm (dimn d) M in
  (bpow radix2 (1 - prec) + E <= Rabs (ldet (dimn d) M) -> exists B, d_inverse d x = Ok (Some B))
  /\ (Rabs (ldet (dimn d) M) + E < bpow radix2 (1 - prec) -> d_inverse d x = Ok None).
Proof. exact c80_inverse_gate. Qed.
Print Assumptions C80_inverse_gate.

(** no overflow for entries up to [B] when [n! B^n] with its rounding errors is representable *)
Theorem C80_det_finite : forall d (x : mat fl (dimn d)) q B, (q <= 0)%Z -> (emin <= q * Z.of_nat (dimn d))%Z -> 1 <= B ->
  (forall i j, (i < dimn d)%nat -> (j < dimn d)%nat ->
     is_finite (mfun x i j) = true /\ grid q (B2R (mfun x i j)) /\ Rabs (B2R (mfun x i j)) <= B) ->
  (1 + uro) ^ det_depth d * (INR (fact (dimn d)) * B ^ dimn d) < bpow radix2 emax ->
  is_finite (d_det d x) = true.
Proof. exact c80_det_finite. Qed.
Print Assumptions C80_det_finite.

(** ** cross product *)
Theorem C80_cross_error : forall (a b : V3 fl) q, (q <= 0)%Z -> (emin <= q * 2)%Z ->
  (forall k, (k < 3)%nat -> grid q (B2R (vfun a k)) /\ grid q (B2R (vfun b k))) ->
  forall i, (i < 3)%nat -> is_finite (vfun (v3_cross a b) i) = true ->
  let j := Nat.modulo (i + 1) 3 in let k := Nat.modulo (i + 2) 3 in
  let A := fun i => B2R (vfun a i) in let B := fun i => B2R (vfun b i) in
  Rabs (B2R (vfun (v3_cross a b) i) - (A j * B k - A k * B j))
  <= ((1 + uro) ^ 2 - 1) * (Rabs (A j * B k) + Rabs (A k * B j)).
Proof. exact c80_cross_error. Qed.
Print Assumptions C80_cross_error.

Theorem C80_q_mul_error : forall (a b : Quaternion fl) q, (q <= 0)%Z -> (emin <= q * 2)%Z ->
  (forall k, (k < 4)%nat -> grid q (B2R (qcomp k a)) /\ grid q (B2R (qcomp k b))) ->
  forall c, (c < 4)%nat -> is_finite (qcomp c (q_mul a b)) = true ->
  let A := fun k => B2R (qcomp k a) in let B := fun k => B2R (qcomp k b) in
  Rabs (B2R (qcomp c (q_mul a b)) - comp4 c (hamilton (h4 A) (h4 B))) <= ((1 + uro) ^ 4 - 1) * hmag A B c.
Proof. exact c80_q_mul_error. Qed.
Print Assumptions C80_q_mul_error.

Theorem C80_q_mul_v_error : forall (a : Quaternion fl) (v : V3 fl) q, (q <= 0)%Z -> (emin <= q * 3)%Z ->
  (forall k, (k < 4)%nat -> grid q (B2R (qcomp k a))) -> (forall k, (k < 3)%nat -> grid q (B2R (vfun v k))) ->
  forall i, (i < 3)%nat -> is_finite (vfun (q_mul_v a v) i) = true ->
  let w := B2R (q0 a) in let u := fun k => B2R (vfun (Quat.q a) k) in let V := fun k => B2R (vfun v k) in
  Rabs (B2R (vfun (q_mul_v a v) i) - rotR w u V i)
  <= ((1 + uro) ^ 7 - 1) * (mag3 V * (1 + 2 * (Rabs w + mag3 u) ^ 2)).
Proof. exact c80_q_mul_v_error. Qed.
Print Assumptions C80_q_mul_v_error.

Theorem C80_to_rotation_error : forall (a : Quaternion fl) q, (q <= 0)%Z -> (emin <= q * 2)%Z ->
  (forall k, (k < 4)%nat -> grid q (B2R (qcomp k a))) ->
  forall i j, (i < 3)%nat -> (j < 3)%nat -> is_finite (mfun (q_to_rotation a) i j) = true ->
  let A := fun k => B2R (qcomp k a) in
  Rabs (B2R (mfun (q_to_rotation a) i j) - comp4 (S i) (hamilton (hamilton (h4 A) (e4 j)) (h4conj A)))
  <= ((1 + uro) ^ 4 - 1) * (2 * (A 0%nat ^ 2 + A 1%nat ^ 2 + A 2%nat ^ 2 + A 3%nat ^ 2)).
Proof. exact c80_to_rotation_error. Qed.
Print Assumptions C80_to_rotation_error.

End F.
