(** * PropsPrograms: C83, C84 (the QR iteration and the linear solver of examples/) *)

From Coq Require Import List Arith Lia Bool Reals Lra.
From Verif Require Import Base Scalar Vec Mat2 Mat3 Mat4 Mat5 Mat6 Slices MatLoops MatOps Programs
  RingDet Spec LoopFacts Entries DetEntries ProofsLoops InstR RFacts InvFacts ProofsRing ProofsInverse QRFacts ProofsQR.
From Verif Require Import ProofsPrograms.
(** Concrete cases meeting the hypotheses: the Examples of ProofsPrograms.v and of Cases.v. *)
Import ListNotations.
Local Open Scope R_scope.

Section Props.
Context {K : RConsts} (OK : RConstsOk K).

(** ** C83: the QR iteration *)
(** One step: never a panic; the new matrix is orthogonally similar to the old one. *)
Theorem C83_step : forall d (A : mat R (dimn d)),
  exists B, convert_to_similar d A = Ok B /\ orth_similar (dimn d) (mfun A) (mfun B).
Proof. exact (c83_step OK). Qed.
Print Assumptions C83_step.

(** What a step keeps: every value of the characteristic polynomial, so the eigenvalues, and
    with them the determinant; the trace. *)
Theorem C83_step_invariants : forall d (A B : mat R (dimn d)), convert_to_similar d A = Ok B ->
  (forall x, char_poly (dimn d) (mfun B) x = char_poly (dimn d) (mfun A) x)
  /\ d_det d B = d_det d A /\ d_trace d B = d_trace d A.
Proof. exact (c83_step_invariants OK). Qed.
Print Assumptions C83_step_invariants.

(** The program ends with the diagonal of a matrix that has the eigenvalues of the one it was
    given. The count is at most [max_iterations]. The iteration stops before that only when
    some entry below the diagonal is zero or below the tolerance. *)
Theorem C83_eigenvalues_partial : forall tol max_iterations (A : M33 R),
  exists (e : V3 R) counter (m : M33 R), eigenvalues tol max_iterations A = Ok (e, counter)
    /\ (forall i, (i < 3)%nat -> vfun e i = mfun m i i)
    /\ orth_similar 3 (mfun A) (mfun m)
    /\ (forall x, char_poly 3 (mfun m) x = char_poly 3 (mfun A) x)
    /\ (counter <= max_iterations)%nat
    /\ (counter = max_iterations \/
        exists i j, (j < i)%nat /\ (i < 3)%nat /\ (mfun m i j = 0 \/ Rabs (mfun m i j) < tol)).
Proof. exact (c83_eigenvalues_partial OK). Qed.
Print Assumptions C83_eigenvalues_partial.

(** If every entry below the diagonal is zero, the values are the eigenvalues, with their
    multiplicities. *)
Theorem C83_triangular : forall d (A B : mat R (dimn d)), orth_similar (dimn d) (mfun A) (mfun B) ->
  (forall i j, (j < i)%nat -> (i < dimn d)%nat -> mfun B i j = 0) ->
  forall x, char_poly (dimn d) (mfun A) x = prodn (dimn d) (fun i => mfun B i i - x).
Proof. exact c83_triangular. Qed.
Print Assumptions C83_triangular.

(** If all of them are within [tau] of zero, every value [e] of the diagonal is nearly an eigenvalue:
    [|det (A - e I)|] is at most [5 tau B^2], with [B] a bound of the entries of [m - e I]. *)
Theorem C83_nearly_triangular : forall (A m : M33 R) tau B k,
  orth_similar 3 (mfun A) (mfun m) -> (k < 3)%nat ->
  (forall i j, (j < i)%nat -> (i < 3)%nat -> Rabs (mfun m i j) <= tau) ->
  (forall i j, (i < 3)%nat -> (j < 3)%nat -> Rabs (mfun m i j - mfun m k k * (if Nat.eqb i j then 1 else 0)) <= B) ->
  Rabs (char_poly 3 (mfun A) (mfun m k k)) <= 5 * tau * (B * B).
Proof. exact c83_nearly_triangular. Qed.
Print Assumptions C83_nearly_triangular.

(** The values need not be eigenvalues, however small the tolerance: the test is met as soon as
    one entry below the diagonal is zero. For the symmetric matrix below, of eigenvalues
    1, 1 and 7, the program stops at once with 1, 172/25 and 28/25. *)
Theorem C83_eigenvalues_refuted : exists A : M33 R, forall tol max_iterations, (0 < max_iterations)%nat ->
  (forall x, char_poly 3 (mfun A) x = (1 - x) * (1 - x) * (7 - x))
  /\ eigenvalues tol max_iterations A = Ok ([| 1; 172 / 25; 28 / 25 |], 1%nat)
  /\ char_poly 3 (mfun A) (172 / 25) <> 0 /\ char_poly 3 (mfun A) (28 / 25) <> 0.
Proof. exact (c83_eigenvalues_refuted OK). Qed.
Print Assumptions C83_eigenvalues_refuted.

(** ** C84: the linear solver *)
Theorem C84_solve : forall d (A : mat R (dimn d)) (b : arr R (dimn d)),
  r_eps <= Rabs (ldet (dimn d) (mfun A)) ->
  exists x, solve d A b = Ok (Some (x, b))
    /\ (forall i, (i < dimn d)%nat -> sumn (dimn d) (fun j => mfun A i j * vfun x j) = vfun b i)
    /\ (forall y, (forall i, (i < dimn d)%nat -> sumn (dimn d) (fun j => mfun A i j * vfun y j) = vfun b i) -> y = x).
Proof. exact (c84_solve OK). Qed.
Print Assumptions C84_solve.

Theorem C84_solve_none_iff : forall d (A : mat R (dimn d)) b,
  solve d A b = Ok None <-> Rabs (ldet (dimn d) (mfun A)) < r_eps.
Proof. exact (c84_solve_none_iff OK). Qed.
Print Assumptions C84_solve_none_iff.

Theorem C84_inverse_check : forall d (A : mat R (dimn d)) B C,
  inverse_check d A = Ok (Some (B, C)) ->
  d_mul d A B = d_identity d /\ d_mul d B A = d_identity d /\ C = d_identity d.
Proof. exact (c84_inverse_check OK). Qed.
Print Assumptions C84_inverse_check.

End Props.
