(** * PropsFloatSolve: the accuracy of the linear solver of examples/ on floats (C84) *)

From Coq Require Import List Arith ZArith Reals Bool Lra Lia.
From Flocq Require Import Core Relative IEEE754.BinarySingleNaN.
From Verif Require Import Base Scalar Vec Mat2 Mat3 Mat4 Mat5 Mat6 Slices MatLoops MatOps Quat Programs RingDet Spec LoopFacts Entries DetEntries ProofsLoops RelFacts InstZ InstR RFacts InvFacts ProofsRing ProofsQuat InstF FloatFacts ProofsFloat ProofsPanic ProofsFloat2 ProofsFloatErr ProofsFloatNorm ProofsFloatInv.
From Verif Require Import ProofsFloatSolve.
(** Concrete cases meeting the hypotheses: the Examples of ProofsFloatSolve.v and of Cases.v. *)
Local Open Scope R_scope.

Section F.
Context {prec emax : Z} {Hp : Prec_gt_0 prec} {He : Prec_lt_emax prec emax} {O : FOracle (binary_float prec emax)}.
Notation fl := (binary_float prec emax).
Notation emin := (3 - emax - prec)%Z.
Notation uro := (uro (prec := prec)).
Notation eta := (eta (prec := prec) (emax := emax)).
Notation inv_bound := (inv_bound (prec := prec) (emax := emax)).
Notation solve_bound := (solve_bound (prec := prec) (emax := emax)).

(** every finite entry of the computed solution against the exact solution [X] *)
Theorem C84_solve_error : forall d (x : mat fl (dimn d)) (b sol ver : arr fl (dimn d)) q (X : nat -> R),
  (q <= 0)%Z -> (emin <= q * Z.of_nat (dimn d))%Z ->
  (forall i j, (i < dimn d)%nat -> (j < dimn d)%nat -> grid q (B2R (mfun x i j))) ->
  is_finite (d_det d x) = true -> solve d x b = Ok (Some (sol, ver)) ->
  let M := fun i j => B2R (mfun x i j) in
  ((1 + uro) ^ det_depth d - 1) * lperm (dimn d) M < Rabs (ldet (dimn d) M) ->
  (forall i, (i < dimn d)%nat -> sumn (dimn d) (fun j => M i j * X j) = B2R (vfun b i)) ->
  forall i, (i < dimn d)%nat -> is_finite (vfun sol i) = true ->
  Rabs (B2R (vfun sol i) - X i) <= solve_bound d M (fun k => B2R (vfun b k)) i.
Proof. exact c84_solve_error. Qed.
Print Assumptions C84_solve_error.

(** the check of the program: the right-hand side computed back *)
Theorem C84_check_error : forall d (x : mat fl (dimn d)) (b sol ver : arr fl (dimn d)) q (X : nat -> R),
  (q <= 0)%Z -> (emin <= q * Z.of_nat (dimn d))%Z ->
  (forall i j, (i < dimn d)%nat -> (j < dimn d)%nat -> grid q (B2R (mfun x i j))) ->
  is_finite (d_det d x) = true -> solve d x b = Ok (Some (sol, ver)) ->
  let M := fun i j => B2R (mfun x i j) in
  ((1 + uro) ^ det_depth d - 1) * lperm (dimn d) M < Rabs (ldet (dimn d) M) ->
  (forall i, (i < dimn d)%nat -> sumn (dimn d) (fun j => M i j * X j) = B2R (vfun b i)) ->
  forall i, (i < dimn d)%nat -> is_finite (vfun ver i) = true ->
  let s := solve_bound d M (fun k => B2R (vfun b k)) in
  Rabs (B2R (vfun ver i) - B2R (vfun b i))
  <= sumn (dimn d) (fun k => Rabs (M i k) * s k)
     + ((1 + uro) ^ dimn d - 1) * sumn (dimn d) (fun k => Rabs (M i k) * (Rabs (X k) + s k))
     + INR (dimn d) * (1 + uro) ^ dimn d * eta.
Proof. exact c84_check_error. Qed.
Print Assumptions C84_check_error.

End F.
