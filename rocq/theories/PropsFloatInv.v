(** * PropsFloatInv: the accuracy of [inverse()] on floats (C82) *)

From Coq Require Import List Arith ZArith Reals Bool Lra Lia.
From Flocq Require Import Core Relative IEEE754.BinarySingleNaN.
From Verif Require Import Base Scalar Vec Mat2 Mat3 Mat4 Mat5 Mat6 Slices MatLoops MatOps Quat RingDet Spec LoopFacts Entries DetEntries ProofsLoops RelFacts InstZ InstR RFacts InvFacts ProofsRing ProofsQuat InstF FloatFacts ProofsFloat ProofsPanic ProofsFloat2 ProofsFloatErr ProofsFloatNorm.
From Verif Require Import ProofsFloatInv.
(** Concrete cases meeting the hypotheses: the Examples of ProofsFloatInv.v and of Cases.v. *)
Local Open Scope R_scope.

Section F.
Context {prec emax : Z} {Hp : Prec_gt_0 prec} {He : Prec_lt_emax prec emax} {O : FOracle (binary_float prec emax)}.
Notation fl := (binary_float prec emax).
Notation emin := (3 - emax - prec)%Z.
Notation fe := (FLT_exp emin prec).
Notation rnd := (round radix2 fe ZnearestE).
Notation uro := (uro (prec := prec)).
Notation eta := (eta (prec := prec) (emax := emax)).
Notation inv_bound := (inv_bound (prec := prec) (emax := emax)).
#[local] Existing Instance bdg_Num.

(** every finite entry of the computed inverse against the exact inverse, that is the transposed cofactors divided by the determinant *)
Theorem C82_inverse_error : forall d (x : mat fl (dimn d)) q B, (q <= 0)%Z -> (emin <= q * Z.of_nat (dimn d))%Z ->
  (forall i j, (i < dimn d)%nat -> (j < dimn d)%nat -> grid q (B2R (mfun x i j))) ->
  is_finite (d_det d x) = true -> d_inverse d x = Ok (Some B) ->
  let M := fun i j => B2R (mfun x i j) in
  let D := ldet (dimn d) M in
  let g := ((1 + uro) ^ det_depth d - 1) * lperm (dimn d) M / Rabs D in
  D <> 0 -> g < 1 ->
  forall i j, (i < dimn d)%nat -> (j < dimn d)%nat -> is_finite (mfun B i j) = true ->
  let P := lperm (dimn d - 1) (minor j i M) in
  Rabs (B2R (mfun B i j) - cofactor (dimn d) M j i / D)
  <= ((1 + uro) ^ (cof_depth d + 2) / (1 - g) - 1) * (P / Rabs D) + ((1 + uro) ^ S (cof_depth d) * P + 1) * eta.
Proof. exact c82_inverse_error. Qed.
Print Assumptions C82_inverse_error.

(** when the determinant overflows or is NaN, [inverse()] still answers, with a matrix of zeros and NaNs *)
Theorem C82_inverse_not_finite : forall d (x : mat fl (dimn d)), is_finite (d_det d x) = false ->
  exists B, d_inverse d x = Ok (Some B) /\
  forall i j, (i < dimn d)%nat -> (j < dimn d)%nat -> mfun B i j = B754_nan \/ exists s, mfun B i j = B754_zero s.
Proof. exact c82_inverse_not_finite. Qed.
Print Assumptions C82_inverse_not_finite.

(** the computed inverse multiplied by the matrix, on either side, against the identity *)
Theorem C82_inverse_residual : forall d (x : mat fl (dimn d)) q B, (q <= 0)%Z -> (emin <= q * Z.of_nat (dimn d))%Z ->
  (forall i j, (i < dimn d)%nat -> (j < dimn d)%nat -> grid q (B2R (mfun x i j))) ->
  is_finite (d_det d x) = true -> d_inverse d x = Ok (Some B) ->
  (forall i j, (i < dimn d)%nat -> (j < dimn d)%nat -> is_finite (mfun B i j) = true) ->
  let M := fun i j => B2R (mfun x i j) in
  let N := fun i j => B2R (mfun B i j) in
  ((1 + uro) ^ det_depth d - 1) * lperm (dimn d) M < Rabs (ldet (dimn d) M) ->
  forall i j, (i < dimn d)%nat -> (j < dimn d)%nat ->
  Rabs (sumn (dimn d) (fun k => M i k * N k j) - (if Nat.eqb i j then 1 else 0))
    <= sumn (dimn d) (fun k => Rabs (M i k) * inv_bound d M k j)
  /\ Rabs (sumn (dimn d) (fun k => N i k * M k j) - (if Nat.eqb i j then 1 else 0))
    <= sumn (dimn d) (fun k => inv_bound d M i k * Rabs (M k j)).
Proof. exact c82_inverse_residual. Qed.
Print Assumptions C82_inverse_residual.

End F.
#[local] Instance prec53 : Prec_gt_0 53 := eq_refl.
#[local] Instance emax1024 : Prec_lt_emax 53 1024 := eq_refl.
#[local] Notation f64 := (binary_float 53 1024).

(** a finite invertible matrix whose determinant overflows: [inverse()] answers with a matrix whose diagonal is zero *)
Theorem C82_inverse_overflow : forall O : FOracle f64, exists x B : M22 f64,
  (forall i j, (i < 2)%nat -> (j < 2)%nat -> is_finite (mfun x i j) = true)
  /\ ldet 2 (fun i j => B2R (mfun x i j)) <> 0
  /\ d_inverse D2 x = Ok (Some B)
  /\ mfun B 0 0 = B754_zero false /\ mfun B 1 1 = B754_zero false.
Proof. exact c82_inverse_overflow. Qed.
Print Assumptions C82_inverse_overflow.
