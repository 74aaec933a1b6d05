(** * PropsFloatNorm: norms and normalization on floats (C81) *)

From Coq Require Import List Arith ZArith Reals Bool Lra Lia.
From Flocq Require Import Core Relative IEEE754.BinarySingleNaN.
From Verif Require Import Base Scalar Vec Mat2 Mat3 Mat4 Mat5 Mat6 Slices MatLoops MatOps Quat RingDet Spec Entries InstZ InstR RFacts ProofsRing ProofsQuat InstF FloatFacts ProofsFloat ProofsPanic ProofsFloat2 ProofsFloatErr.
From Verif Require Import ProofsFloatNorm.
(** Concrete cases meeting the hypotheses: the Examples of ProofsFloatNorm.v and of Cases.v. *)
Local Open Scope R_scope.

Section F.
Context {prec emax : Z} {Hp : Prec_gt_0 prec} {He : Prec_lt_emax prec emax} {O : FOracle (binary_float prec emax)}.
Notation fl := (binary_float prec emax).
Notation emin := (3 - emax - prec)%Z.
Notation fe := (FLT_exp emin prec).
Notation rnd := (round radix2 fe ZnearestE).
Notation uro := (uro (prec := prec)).
Notation eta := (eta (prec := prec) (emax := emax)).

Theorem C81_norm2_error_partial : forall d (v : arr fl (dimn d)) q, (q <= 0)%Z -> (emin <= q * 2)%Z ->
  (forall k, (k < dimn d)%nat -> grid q (B2R (vfun v k))) -> is_finite (d_vnorm2 d v) = true ->
  let N := sqrt (sq_sum (dimn d) (fun k => B2R (vfun v k))) in
  Rabs (B2R (d_vnorm2 d v) - N) <= ((1 + uro) ^ S (dimn d) - 1) * N.
Proof. exact c81_norm2_error_partial. Qed.
Print Assumptions C81_norm2_error_partial.

Theorem C81_normalize_error_partial : forall d (v : arr fl (dimn d)) q, (q <= 0)%Z -> (emin <= q * 2)%Z ->
  (forall k, (k < dimn d)%nat -> grid q (B2R (vfun v k))) -> is_finite (d_vnorm2 d v) = true ->
  let N := sqrt (sq_sum (dimn d) (fun k => B2R (vfun v k))) in
  let g := (1 + uro) ^ S (dimn d) - 1 in
  g <= / 2 -> 0 < N ->
  exists u, d_vnormalize d v = Ok (Some u) /\ forall i, (i < dimn d)%nat -> is_finite (vfun u i) = true
    /\ Rabs (B2R (vfun u i) - B2R (vfun v i) / N) <= ((1 + uro) / (1 - g) - 1) * Rabs (B2R (vfun v i) / N) + eta.
Proof. exact c81_normalize_error_partial. Qed.
Print Assumptions C81_normalize_error_partial.

(** [norm2] of a quaternion *)
Theorem C81_q_norm2_error_partial : forall (a : Quaternion fl) q, (q <= 0)%Z -> (emin <= q * 2)%Z ->
  (forall k, (k < 4)%nat -> grid q (B2R (qcomp k a))) -> is_finite (q_norm2 a) = true ->
  let N := sqrt (sq_sum 4 (fun k => B2R (qcomp k a))) in
  Rabs (B2R (q_norm2 a) - N) <= ((1 + uro) ^ 5 - 1) * N.
Proof. exact c81_q_norm2_error_partial. Qed.
Print Assumptions C81_q_norm2_error_partial.

End F.
#[local] Instance prec53 : Prec_gt_0 53 := eq_refl.
#[local] Instance emax1024 : Prec_lt_emax 53 1024 := eq_refl.
#[local] Notation f64 := (binary_float 53 1024).

(** the squares overflow: the result of normalizing a finite vector is the zero vector *)
Theorem C81_normalize_overflow_refuted : forall O : FOracle f64, exists v u : V2 f64,
  (forall k, (k < 2)%nat -> is_finite (vfun v k) = true) /\ Beqb (vfun v 0) (B754_zero false) = false /\
  d_vnormalize D2 v = Ok (Some u) /\ (forall k, (k < 2)%nat -> vfun u k = B754_zero false).
Proof. exact c81_normalize_overflow_refuted. Qed.
Print Assumptions C81_normalize_overflow_refuted.

(** the squares underflow: a vector that is not zero is reported as having norm zero *)
Theorem C81_normalize_underflow_refuted : forall O : FOracle f64, exists v : V2 f64,
  (forall k, (k < 2)%nat -> is_finite (vfun v k) = true) /\ Beqb (vfun v 0) (B754_zero false) = false /\
  d_vnorm2 D2 v = B754_zero false /\ d_vnormalize D2 v = Ok None.
Proof. exact c81_normalize_underflow_refuted. Qed.
Print Assumptions C81_normalize_underflow_refuted.
