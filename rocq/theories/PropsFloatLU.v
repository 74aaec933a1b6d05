(** * PropsFloatLU: the accuracy of lu() on floats (C86) *)

From Coq Require Import List Arith ZArith Reals Bool Lra Lia.
From Flocq Require Import Core Relative Plus_error IEEE754.BinarySingleNaN.
From Verif Require Import Base Scalar Vec Mat2 Mat3 Mat4 Mat5 Mat6 Slices MatLoops MatOps RingDet Spec LoopFacts Entries InstZ InstR InstF FloatFacts LUFacts ProofsFloatErr.
From Verif Require Import ProofsFloatLU.
(** Concrete cases meeting the hypotheses: the Examples of ProofsFloatLU.v and of Cases.v. *)
Local Open Scope R_scope.

Section F.
Context {prec emax : Z} {Hp : Prec_gt_0 prec} {He : Prec_lt_emax prec emax} {O : FOracle (binary_float prec emax)}.
Notation fl := (binary_float prec emax).
Notation emin := (3 - emax - prec)%Z.
Notation fe := (FLT_exp emin prec).
Notation rnd := (round radix2 fe ZnearestE).
Notation uro := (uro (prec := prec)).
Notation eta := (eta (prec := prec) (emax := emax)).
Notation val m := (fun i j => B2R (mfun m i j)).

(** lu() panics exactly when the first row holds nothing but zeros and NaNs; every other matrix, with NaNs, infinities or
    zero rows elsewhere, is factored *)
Theorem C86_lu_panic_iff : forall d (A : mat fl (dimn d)),
  d_lu d A = Panic <-> forall j, (j < dimn d)%nat -> is_nan (mfun A 0 j) = true \/ Beqb (mfun A 0 j) (B754_zero false) = true.
Proof. exact c86_lu_panic_iff. Qed.
Print Assumptions C86_lu_panic_iff.

(** the computed factors are those of a matrix within the stated distance of the row exchanged input; a pivot that vanishes
    is replaced by 1e-40 and the input is perturbed by that on the diagonal *)
Theorem C86_lu_error : forall d (A m : mat fl (dimn d)) det ix, B2R lit_1em40 <> 0 -> d_lu d A = Ok (m, det, ix) ->
  (forall i j, (i < dimn d)%nat -> (j < dimn d)%nat -> is_finite (mfun m i j) = true) ->
  let n := dimn d in let M := fun i j => B2R (mfun m i j) in
  (forall i j, (i < n)%nat -> (j < n)%nat -> is_finite (mfun A i j) = true) /\
  (forall l, (l < n)%nat -> (l <= pos ix l < n)%nat) /\
  exists e, (forall l, e l = 0 \/ e l = B2R lit_1em40 /\ mfun m l l = lit_1em40) /\
  forall i j, (i < n)%nat -> (j < n)%nat ->
    Rabs (mmul n (Lpart M) (Upart M) i j - (exchange n (pos ix) (fun a b => B2R (mfun A a b)) i j + (if Nat.eqb i j then e i else 0)))
    <= ((1 + uro) ^ n - 1) * mmul n (fun a b => Rabs (Lpart M a b)) (fun a b => Rabs (Upart M a b)) i j
       + INR n * (1 + uro) ^ n * eta * (1 + Rabs (M j j)).
Proof. exact c86_lu_error. Qed.
Print Assumptions C86_lu_error.

End F.
