(** * PropsFloat: theorems about IEEE floats (C17, C23, C49, C50) *)

From Coq Require Import List Arith ZArith Reals Bool Lra Lia.
From Flocq Require Import Core IEEE754.BinarySingleNaN.
From Verif Require Import Base Scalar Vec Mat2 Mat3 Mat4 Mat5 Mat6 Slices MatLoops MatOps RingDet Spec Entries DetEntries RelFacts InstZ InstR RFacts ProofsRing InstF FloatFacts.
From Verif Require Import ProofsFloat.
(** Concrete cases meeting the hypotheses: the Examples of ProofsFloat.v and of Cases.v. *)
Open Scope sc_scope.

Section F.
Context {prec emax : Z} {Hp : Prec_gt_0 prec} {He : Prec_lt_emax prec emax}.
Notation fl := (binary_float prec emax).
Notation err := (err prec emax).

(** ** C17: which laws hold bit for bit *)
Theorem C17_float_vadd_comm : forall d (v w : arr fl (dimn d)), d_vadd d v w = d_vadd d w v.
Proof. exact c17_float_vadd_comm. Qed.
Print Assumptions C17_float_vadd_comm.

Theorem C17_float_add_comm : forall d (A B : mat fl (dimn d)), d_add d A B = d_add d B A.
Proof. exact c17_float_add_comm. Qed.
Print Assumptions C17_float_add_comm.

Theorem C17_float_vlscale : forall d (v : arr fl (dimn d)) s, d_vlscale d s v = d_vscale d v s.
Proof. exact c17_float_vlscale. Qed.
Print Assumptions C17_float_vlscale.

Theorem C17_float_sub_neg : forall d (A B : mat fl (dimn d)), d_sub d A B = d_add d A (d_neg d B).
Proof. exact c17_float_sub_neg. Qed.
Print Assumptions C17_float_sub_neg.

Theorem C17_float_vsub_neg : forall d (v w : arr fl (dimn d)), d_vsub d v w = d_vadd d v (d_vneg d w).
Proof. exact c17_float_vsub_neg. Qed.
Print Assumptions C17_float_vsub_neg.

Theorem C17_float_neg_neg : forall d (A : mat fl (dimn d)), d_neg d (d_neg d A) = A.
Proof. exact c17_float_neg_neg. Qed.
Print Assumptions C17_float_neg_neg.

Theorem C17_float_dot_comm : forall d (v w : arr fl (dimn d)), d_vdot d v w = d_vdot d w v.
Proof. exact c17_float_dot_comm. Qed.
Print Assumptions C17_float_dot_comm.
Context {O : FOracle fl}.

Theorem C23_symmetric : forall a b e : fl, nearly_equal a b e = nearly_equal b a e.
Proof. exact c23_symmetric. Qed.
Print Assumptions C23_symmetric.

Theorem C23_reflexive : forall a e : fl, nearly_equal a a e = negb (is_nan a).
Proof. exact c23_reflexive. Qed.
Print Assumptions C23_reflexive.

Theorem C23_nan : forall a e : fl, nearly_equal B754_nan a e = false /\ nearly_equal a B754_nan e = false.
Proof. exact c23_nan. Qed.
Print Assumptions C23_nan.

(** comparison with zero is absolute *)
Theorem C23_zero : forall a e : fl,
  nearly_equal a zero e = Beqb a (B754_zero false) || Bltb (Babs a) e.
Proof. exact c23_zero. Qed.
Print Assumptions C23_zero.

Theorem C23_nearly_zero : forall a : fl,
  nearly_zero a = Beqb a (B754_zero false) || Bltb (Babs a) (epsilon : fl).
Proof. exact c23_nearly_zero. Qed.
Print Assumptions C23_nearly_zero.

(** an infinity is nearly equal to itself only *)
Theorem C23_infinity : forall s (b e : fl), nearly_equal (B754_infinity s) b e = Beqb (B754_infinity s) b.
Proof. exact c23_infinity. Qed.
Print Assumptions C23_infinity.

Theorem C23_monotone : forall a b e e' : fl, Bleb e e' = true -> nearly_equal a b e = true -> nearly_equal a b e' = true.
Proof. exact c23_monotone. Qed.
Print Assumptions C23_monotone.

Theorem C50_dot_error : forall d (v w : arr fl (dimn d)), is_finite (d_vdot d v w) = true ->
  (forall k, k < dimn d -> is_finite (vfun v k) = true /\ is_finite (vfun w k) = true)
  /\ err (dimn d) (B2R (d_vdot d v w) - sumn (dimn d) (fun k => B2R (vfun v k) * B2R (vfun w k)))
       (sumn (dimn d) (fun k => Rabs (B2R (vfun v k) * B2R (vfun w k)))).
Proof. exact c50_dot_error. Qed.
Print Assumptions C50_dot_error.

Theorem C50_mul_v_error : forall d (A : mat fl (dimn d)) v i, i < dimn d ->
  is_finite (vfun (d_mul_v d A v) i) = true ->
  err (dimn d) (B2R (vfun (d_mul_v d A v) i) - sumn (dimn d) (fun k => B2R (mfun A i k) * B2R (vfun v k)))
    (sumn (dimn d) (fun k => Rabs (B2R (mfun A i k) * B2R (vfun v k)))).
Proof. exact c50_mul_v_error. Qed.
Print Assumptions C50_mul_v_error.

Theorem C50_mul_error : forall d (A B : mat fl (dimn d)) i j, i < dimn d -> j < dimn d ->
  is_finite (mfun (d_mul d A B) i j) = true ->
  err (dimn d) (B2R (mfun (d_mul d A B) i j) - sumn (dimn d) (fun k => B2R (mfun A i k) * B2R (mfun B k j)))
    (sumn (dimn d) (fun k => Rabs (B2R (mfun A i k) * B2R (mfun B k j)))).
Proof. exact c50_mul_error. Qed.
Print Assumptions C50_mul_error.

(** the same bound with the usual constant [gamma_n = n u / (1 - n u)] *)
Theorem C50_gamma : forall n, (INR n * uro (prec := prec) < 1)%R ->
  ((1 + uro (prec := prec)) ^ n - 1 <= INR n * uro (prec := prec) / (1 - INR n * uro (prec := prec)))%R.
Proof. exact c50_gamma. Qed.
Print Assumptions C50_gamma.

Theorem C49_dot_exact : forall d (v w : arr fl (dimn d)) (V W : arr Z (dimn d)),
  (forall k, k < dimn d -> intval (vfun v k) (vfun V k) /\ intval (vfun w k) (vfun W k)) ->
  (sumn (dimn d) (fun k => Z.abs (vfun V k * vfun W k)) <= 2 ^ prec)%Z ->
  intval (d_vdot d v w) (sumn (dimn d) (fun k => (vfun V k * vfun W k)%Z)).
Proof. exact c49_dot_exact. Qed.
Print Assumptions C49_dot_exact.

Theorem C49_mul_v_exact : forall d (A : mat fl (dimn d)) v (A' : mat Z (dimn d)) (V : arr Z (dimn d)) i,
  (forall k, k < dimn d -> intval (mfun A i k) (mfun A' i k) /\ intval (vfun v k) (vfun V k)) -> i < dimn d ->
  (sumn (dimn d) (fun k => Z.abs (mfun A' i k * vfun V k)) <= 2 ^ prec)%Z ->
  intval (vfun (d_mul_v d A v) i) (sumn (dimn d) (fun k => (mfun A' i k * vfun V k)%Z)).
Proof. exact c49_mul_v_exact. Qed.
Print Assumptions C49_mul_v_exact.

Theorem C49_mul_exact : forall d (A B : mat fl (dimn d)) (A' B' : mat Z (dimn d)) i j,
  (forall k, k < dimn d -> intval (mfun A i k) (mfun A' i k) /\ intval (mfun B k j) (mfun B' k j)) ->
  i < dimn d -> j < dimn d ->
  (sumn (dimn d) (fun k => Z.abs (mfun A' i k * mfun B' k j)) <= 2 ^ prec)%Z ->
  intval (mfun (d_mul d A B) i j) (sumn (dimn d) (fun k => (mfun A' i k * mfun B' k j)%Z)).
Proof. exact c49_mul_exact. Qed.
Print Assumptions C49_mul_exact.

(** the specification [ldet] is the Laplace expansion of Spec.v; C04 relates it
    to the integer code *)
Theorem C49_det_exact : forall d (x : mat fl (dimn d)) (n : mat Z (dimn d)) K, (1 <= K)%Z ->
  (forall i j, i < dimn d -> j < dimn d -> intval (mfun x i j) (mfun n i j) /\ (Z.abs (mfun n i j) <= K)%Z) ->
  (Z.of_nat (fact (dimn d)) * K ^ Z.of_nat (dimn d) <= 2 ^ prec)%Z ->
  intval (d_det d x) (ldet (dimn d) (mfun n)).
Proof. exact c49_det_exact. Qed.
Print Assumptions C49_det_exact.

End F.

(** in exact arithmetic, two non-zero numbers are compared relative to their size *)
Theorem C23_relative_R : forall {K : RConsts} (OK : RConstsOk K) (a b e : R), a <> 0%R -> b <> 0%R ->
  nearly_equal a b e = true <-> (a = b \/ Rabs (a - b) < e * Rmin (Rabs a + Rabs b) r_max)%R.
Proof. exact @c23_relative_R. Qed.
Print Assumptions C23_relative_R.
