(** * PropsFloatEig: the eigenvalues of a 2x2 float matrix (C93) *)

From Coq Require Import List Arith ZArith Reals Bool Lra Lia.
From Flocq Require Import Core Relative Sterbenz IEEE754.BinarySingleNaN.
From Verif Require Import Base Scalar Vec Mat2 Mat3 Mat4 Mat5 Mat6 Slices MatLoops MatOps Quat Transf RingDet Spec LoopFacts Entries InstZ InstR RFacts LUFacts QRFacts ProofsRing ProofsQuat InstF FloatFacts ProofsFloat ProofsFloat2 ProofsFloatErr ProofsFloatInv ProofsFloatNorm ProofsFloatRot.
From Verif Require Import ProofsFloatEig.
(** Concrete cases meeting the hypotheses: the Examples of ProofsFloatEig.v and of Cases.v. *)
Local Open Scope R_scope.

Section F.
Context {prec emax : Z} {Hp : Prec_gt_0 prec} {He : Prec_lt_emax prec emax} {O : FOracle (binary_float prec emax)}.
Notation fl := (binary_float prec emax).
Notation uro := (uro (prec := prec)).
Notation eta := (eta (prec := prec) (emax := emax)).
Hypothesis Hp11 : (11 <= prec)%Z.
Hypothesis He4 : (4 * prec <= emax)%Z.
#[local] Existing Instance bdu_Num.

Theorem C93_eigenvalues : forall (A : M22 fl) B, 1 <= B -> 200 * (B * B) <= bpow radix2 emax ->
  (forall i j, (i < 2)%nat -> (j < 2)%nat -> is_finite (mfun A i j) = true /\ Rabs (B2R (mfun A i j)) <= B) ->
  let X := fun i j => B2R (mfun A i j) in
  let M := Rabs (X 0 0)%nat + Rabs (X 0 1)%nat + Rabs (X 1 0)%nat + Rabs (X 1 1)%nat in
  let t := X 0%nat 0%nat + X 1%nat 1%nat in let d := X 0%nat 0%nat * X 1%nat 1%nat - X 0%nat 1%nat * X 1%nat 0%nat in
  let D := t * t - 4 * d in let r := 81 / 10 * uro * (M * M) + 11 * eta in
  match m22_real_eigenvals A with
  | None => D < r
  | Some v => - r <= D /\ is_finite (vfun v 0) = true /\ is_finite (vfun v 1) = true /\
      let l1 := B2R (vfun v 0) in let l2 := B2R (vfun v 1) in
      l2 <= l1 /\
      Rabs (l1 * l1 - t * l1 + d) <= 7 * uro * (M * M) + (2 * M + 4) * eta /\ Rabs (l2 * l2 - t * l2 + d) <= 7 * uro * (M * M) + (2 * M + 4) * eta /\
      Rabs (l1 + l2 - t) <= 51 / 10 * uro * M + 8 * uro * sqrt eta + 2 * eta
  end.
Proof. exact (c93_eigenvalues Hp11 He4). Qed.
Print Assumptions C93_eigenvalues.

End F.
#[local] Instance prec53 : Prec_gt_0 53 := eq_refl.
#[local] Instance emax1024 : Prec_lt_emax 53 1024 := eq_refl.
#[local] Notation f64 := (binary_float 53 1024).

(** a diagonal matrix with the entries 1 + 2^-52 and 1 is said to have no real eigenvalue *)
Theorem C93_diagonal_refuted : forall O : FOracle f64, exists x y : f64, is_finite x = true /\ is_finite y = true /\ 1 <= B2R y < B2R x /\ B2R x <= 2 /\
  m22_real_eigenvals [| [| x; zero |]; [| zero; y |] |] = None.
Proof. exact c93_diagonal_refuted. Qed.
Print Assumptions C93_diagonal_refuted.

(** a matrix without any real eigenvalue is said to have two: the polynomial has no real zero *)
Theorem C93_complex_refuted : forall O : FOracle f64, exists (A : M22 f64) (v : V2 f64), m22_real_eigenvals A = Some v /\
  (forall i j, (i < 2)%nat -> (j < 2)%nat -> is_finite (mfun A i j) = true) /\
  (forall l, 0 < l * l - (B2R (mfun A 0 0) + B2R (mfun A 1 1)) * l + (B2R (mfun A 0 0) * B2R (mfun A 1 1) - B2R (mfun A 0 1) * B2R (mfun A 1 0))).
Proof. exact c93_complex_refuted. Qed.
Print Assumptions C93_complex_refuted.

(** finite entries, NaN eigenvalues *)
Theorem C93_nan_refuted : forall O : FOracle f64, exists x : f64, is_finite x = true /\
  m22_real_eigenvals [| [| x; zero |]; [| zero; x |] |] = Some [| B754_nan; B754_nan |].
Proof. exact c93_nan_refuted. Qed.
Print Assumptions C93_nan_refuted.

(** an invertible diagonal matrix gets the eigenvalue 0: small eigenvalues have no relative accuracy *)
Theorem C93_small_refuted : forall O : FOracle f64, exists x y l : f64, B2R x = 1 /\ B2R y = bpow radix2 (-60) /\ B2R l = 1 /\
  m22_real_eigenvals [| [| x; zero |]; [| zero; y |] |] = Some [| l; zero |].
Proof. exact c93_small_refuted. Qed.
Print Assumptions C93_small_refuted.
