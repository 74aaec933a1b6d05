(** * PropsFloatQR: QR on floats (C89); normalization on floats in any dimension (C90) *)

From Coq Require Import List Arith ZArith Reals Bool Lra Lia.
From Flocq Require Import Core Relative Sterbenz IEEE754.BinarySingleNaN.
From Verif Require Import Base Scalar Vec Mat2 Mat3 Mat4 Mat5 Mat6 Slices MatLoops MatOps Quat Transf RingDet Spec LoopFacts Entries InstZ InstR RFacts LUFacts ProofsRing InstF FloatFacts ProofsFloat ProofsFloat2 ProofsQR ProofsFloatErr ProofsFloatInv ProofsFloatNorm ProofsFloatRot.
From Verif Require Import ProofsFloatQR.
(** Concrete cases meeting the hypotheses: the Examples of ProofsFloatQR.v and of Cases.v. *)
Local Open Scope R_scope.

Section F.
Context {prec emax : Z} {Hp : Prec_gt_0 prec} {He : Prec_lt_emax prec emax} {O : FOracle (binary_float prec emax)}.
Notation fl := (binary_float prec emax).
Notation emin := (3 - emax - prec)%Z.
Notation fe := (FLT_exp emin prec).
Notation rnd := (round radix2 fe ZnearestE).
Notation uro := (uro (prec := prec)).
Notation eta := (eta (prec := prec) (emax := emax)).

(** R is the rounded product of the transpose of Q with the input *)
Theorem C89_qr_r_error : forall d (A Q R : mat fl (dimn d)), d_qr d A = Ok (Some (Q, R)) ->
  forall k j, (k < dimn d)%nat -> (j < dimn d)%nat -> is_finite (mfun R k j) = true ->
  (forall l, (l < dimn d)%nat -> is_finite (mfun Q l k) = true /\ is_finite (mfun A l j) = true) /\
  Rabs (B2R (mfun R k j) - sumn (dimn d) (fun l => B2R (mfun Q l k) * B2R (mfun A l j)))
  <= ((1 + uro) ^ dimn d - 1) * sumn (dimn d) (fun l => Rabs (B2R (mfun Q l k) * B2R (mfun A l j))) + INR (dimn d) * (1 + uro) ^ dimn d * eta.
Proof. exact c89_qr_r_error. Qed.
Print Assumptions C89_qr_r_error.

(** Q R is as close to the input as Q is to being orthogonal *)
Theorem C89_qr_residual : forall d (A Q R : mat fl (dimn d)), d_qr d A = Ok (Some (Q, R)) ->
  (forall i j, (i < dimn d)%nat -> (j < dimn d)%nat -> is_finite (mfun R i j) = true) ->
  let n := dimn d in let q := fun i k => B2R (mfun Q i k) in let a := fun i j => B2R (mfun A i j) in
  forall i j, (i < n)%nat -> (j < n)%nat ->
  Rabs (sumn n (fun k => q i k * B2R (mfun R k j)) - a i j)
  <= sumn n (fun l => Rabs (sumn n (fun k => q i k * q l k) - (if Nat.eqb i l then 1 else 0)) * Rabs (a l j))
     + sumn n (fun k => Rabs (q i k) * (((1 + uro) ^ n - 1) * sumn n (fun l => Rabs (q l k * a l j)) + INR n * (1 + uro) ^ n * eta)).
Proof. exact c89_qr_residual. Qed.
Print Assumptions C89_qr_residual.
Hypothesis Hp11 : (11 <= prec)%Z.
Hypothesis He4 : (4 * prec <= emax)%Z.

(** slices_methods::normalize *)
Theorem C90_slice_normalize : forall n (v : arr fl n), (0 < n <= 100)%nat ->
  is_finite (norm2 (alist v)) = true -> 1000000 * eta <= uro * (B2R (norm2 (alist v)) * B2R (norm2 (alist v))) ->
  let w := normalize v in let N := sqrt (sq_sum n (fun k => B2R (vfun v k))) in
  Rabs (sq_sum n (fun k => B2R (vfun w k)) - 1) <= (9 / 8 * INR n + 9 / 2) * uro /\
  forall k, (k < n)%nat -> is_finite (vfun w k) = true /\
    Rabs (B2R (vfun w k) - B2R (vfun v k) / N) <= (9 / 16 * INR n + 11 / 5) * uro * Rabs (B2R (vfun v k) / N) + eta.
Proof. exact (c90_slice_normalize Hp11 He4). Qed.
Print Assumptions C90_slice_normalize.

(** the method of the vector types *)
Theorem C90_vector_normalize : forall d (v : arr fl (dimn d)), let n := dimn d in
  is_finite (d_vnorm2 d v) = true -> 1000000 * eta <= uro * (B2R (d_vnorm2 d v) * B2R (d_vnorm2 d v)) ->
  exists w, d_vnormalize d v = Ok (Some w) /\ let N := sqrt (sq_sum n (fun k => B2R (vfun v k))) in
  Rabs (sq_sum n (fun k => B2R (vfun w k)) - 1) <= (9 / 8 * INR n + 9 / 2) * uro /\
  forall k, (k < n)%nat -> is_finite (vfun w k) = true /\
    Rabs (B2R (vfun w k) - B2R (vfun v k) / N) <= (9 / 16 * INR n + 11 / 5) * uro * Rabs (B2R (vfun v k) / N) + eta.
Proof. exact (c90_vector_normalize Hp11 He4). Qed.
Print Assumptions C90_vector_normalize.

(** the columns of Q: each is the vector left after the projections, normalized *)
Theorem C89_qr_columns : forall d (A Q R : mat fl (dimn d)), d_qr d A = Ok (Some (Q, R)) -> let n := dimn d in
  forall j, (j < n)%nat -> exists u : arr fl n, (j = 0%nat -> forall l, (l < n)%nat -> vfun u l = mfun A l 0) /\
  (forall l, (l < n)%nat -> mfun Q l j = Bdiv mode_NE (vfun u l) (norm2 (alist u))) /\
  (is_finite (norm2 (alist u)) = true -> 1000000 * eta <= uro * (B2R (norm2 (alist u)) * B2R (norm2 (alist u))) ->
   (forall l, (l < n)%nat -> is_finite (mfun Q l j) = true) /\
   Rabs (sq_sum n (fun l => B2R (mfun Q l j)) - 1) <= (9 / 8 * INR n + 9 / 2) * uro).
Proof. exact (c89_qr_columns Hp11 He4). Qed.
Print Assumptions C89_qr_columns.

End F.
#[local] Instance prec53 : Prec_gt_0 53 := eq_refl.
#[local] Instance emax1024 : Prec_lt_emax 53 1024 := eq_refl.
#[local] Notation f64 := (binary_float 53 1024).

(** everything stays finite, but two columns of Q are far from orthogonal and Q R is far from the input *)
Theorem C89_qr_refuted : forall O : FOracle f64, exists A Q R : M33 f64, d_qr D3 A = Ok (Some (Q, R))
  /\ (forall i j, (i < 3)%nat -> (j < 3)%nat -> is_finite (mfun A i j) = true /\ is_finite (mfun Q i j) = true /\ is_finite (mfun R i j) = true)
  /\ 7 / 10 <= sumn 3 (fun l => B2R (mfun Q l 1) * B2R (mfun Q l 2))
  /\ B2R (mfun A 1 0) = 1024 /\ 2559 <= sumn 3 (fun k => B2R (mfun Q 1 k) * B2R (mfun R k 0)).
Proof. exact c89_qr_refuted. Qed.
Print Assumptions C89_qr_refuted.

(** a diagonal matrix with finite entries and a determinant above epsilon *)
Theorem C89_qr_nan_refuted : forall O : FOracle f64, exists A Q R : M22 f64, d_qr D2 A = Ok (Some (Q, R))
  /\ B2R (mfun A 0 0) = bpow radix2 500 /\ B2R (mfun A 1 1) = bpow radix2 (-540) /\ B2R (mfun A 0 1) = 0 /\ B2R (mfun A 1 0) = 0
  /\ mfun Q 0 1 = B754_nan /\ mfun Q 1 1 = B754_infinity false.
Proof. exact c89_qr_nan_refuted. Qed.
Print Assumptions C89_qr_nan_refuted.
