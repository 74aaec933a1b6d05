(** * PropsFloat2: further theorems about IEEE floats (C66 - C69) *)

From Coq Require Import List Arith ZArith Reals Bool Lra Lia.
From Flocq Require Import Core IEEE754.BinarySingleNaN.
From Verif Require Import Base Scalar Vec Mat2 Mat3 Mat4 Mat5 Mat6 Slices MatLoops MatOps Quat DualQuat RingDet Spec Entries InstZ InstR RFacts InstF FloatFacts ProofsFloat ProofsQuat ProofsRigid ProofsBasic LoopFacts ProofsLoops QRFacts ProofsQR ProofsPanic.
From Verif Require Import ProofsFloat2.
(** Concrete cases meeting the hypotheses: the Examples of ProofsFloat2.v and of Cases.v. *)
Open Scope sc_scope.

Section F.
Context {prec emax : Z} {Hp : Prec_gt_0 prec} {He : Prec_lt_emax prec emax}.
Notation fl := (binary_float prec emax).
Notation fe := (FLT_exp (3 - emax - prec) prec).

(** ** C66: neutral elements *)
Theorem C66_scale_one : forall d (A : mat fl (dimn d)) (v : arr fl (dimn d)),
  d_scale d A one = A /\ d_vscale d v one = v /\ d_div d A one = A /\ d_vdiv d v one = v.
Proof. exact c66_scale_one. Qed.
Print Assumptions C66_scale_one.

(** the value of every entry survives, and with it every bit of a non-zero one *)
Theorem C66_mul_identity : forall d (A : mat fl (dimn d)),
  (forall i j, i < dimn d -> j < dimn d -> is_finite (mfun A i j) = true) ->
  forall i j, i < dimn d -> j < dimn d ->
  is_val (mfun (d_mul d A (d_identity d)) i j) (B2R (mfun A i j))
  /\ is_val (mfun (d_mul d (d_identity d) A) i j) (B2R (mfun A i j)).
Proof. exact c66_mul_identity. Qed.
Print Assumptions C66_mul_identity.

Theorem C66_mul_v_identity : forall d (v : arr fl (dimn d)),
  (forall i, i < dimn d -> is_finite (vfun v i) = true) -> forall i, i < dimn d ->
  is_val (vfun (d_mul_v d (d_identity d) v) i) (B2R (vfun v i)).
Proof. exact c66_mul_v_identity. Qed.
Print Assumptions C66_mul_v_identity.

(** equal values compare equal, and non-zero ones are the same float *)
Theorem C66_same_value : forall x y : fl, is_val x (B2R y) -> is_finite y = true ->
  Beqb x y = true /\ (B2R y <> 0%R -> x = y).
Proof. exact c66_same_value. Qed.
Print Assumptions C66_same_value.

Theorem C66_zero : forall d (A : mat fl (dimn d)),
  (forall i j, i < dimn d -> j < dimn d -> is_finite (mfun A i j) = true) ->
  d_sub d A A = d_zeros d
  /\ forall i j, i < dimn d -> j < dimn d -> is_val (mfun (d_add d A (d_zeros d)) i j) (B2R (mfun A i j)).
Proof. exact c66_zero. Qed.
Print Assumptions C66_zero.

(** ** C67: the transpose of a product *)
Theorem C67_transpose_mul_partial : forall d (A B : mat fl (dimn d)), d <> D4 ->
  d_transpose d (d_mul d A B) = d_mul d (d_transpose d B) (d_transpose d A).
Proof. exact c67_transpose_mul_partial. Qed.
Print Assumptions C67_transpose_mul_partial.

(** size 4: every entry outside row 2 and column 2 *)
Theorem C67_transpose_mul4_partial : forall (A B : mat fl 4) i j, i < 4 -> j < 4 -> i <> 2 -> j <> 2 ->
  mfun (d_transpose D4 (d_mul D4 A B)) i j = mfun (d_mul D4 (d_transpose D4 B) (d_transpose D4 A)) i j.
Proof. exact c67_transpose_mul4_partial. Qed.
Print Assumptions C67_transpose_mul4_partial.
Context {O : FOracle fl}.

(** [epsilon()] is [2^(1-prec)] *)
Theorem C68_epsilon : B2R (epsilon : fl) = bpow radix2 (1 - prec).
Proof. exact c68_epsilon. Qed.
Print Assumptions C68_epsilon.

(** [None] exactly when the computed determinant is below [epsilon] *)
Theorem C68_inverse_none_iff : forall d (A : mat fl (dimn d)),
  d_inverse d A = Ok None <-> Bltb (Babs (d_det d A)) (epsilon : fl) = true.
Proof. exact c68_inverse_none_iff. Qed.
Print Assumptions C68_inverse_none_iff.

(** a NaN determinant passes the test *)
Theorem C68_inverse_nan : forall d (A : mat fl (dimn d)), d_det d A = B754_nan ->
  exists B, d_inverse d A = Ok (Some B).
Proof. exact c68_inverse_nan. Qed.
Print Assumptions C68_inverse_nan.

Theorem C68_qr_none_iff : forall d (A : mat fl (dimn d)),
  d_qr d A = Ok None <-> Bltb (Babs (d_det d A)) (epsilon : fl) = true.
Proof. exact c68_qr_none_iff. Qed.
Print Assumptions C68_qr_none_iff.

(** ** C69: comparisons of floats *)
(** a matrix equals itself exactly when it has no NaN; the comparison is symmetric *)
Theorem C69_eq_reflexive_iff : forall n (A : mat fl n),
  aeqb (aeqb eqb) A A = true <-> forall i j, i < n -> j < n -> is_nan (mfun A i j) = false.
Proof. exact c69_eq_reflexive_iff. Qed.
Print Assumptions C69_eq_reflexive_iff.

Theorem C69_eq_symmetric : forall n (A B : mat fl n), aeqb (aeqb eqb) A B = aeqb (aeqb eqb) B A.
Proof. exact c69_eq_symmetric. Qed.
Print Assumptions C69_eq_symmetric.

End F.

Section Any.
Context {T : Type} {nT : Num T} {sT : Signed T} {oT : POrd T} {fT : Float T}.

Theorem C69_compare_iff : forall (a b : DualQuaternion T) e,
  compare_dual_quaternions a b e = true <-> Forall2 (fun x y => nearly_equal x y e = true) (dqlist a) (dqlist b).
Proof. exact c69_compare_iff. Qed.
Print Assumptions C69_compare_iff.

End Any.

Section F.
Context {prec emax : Z} {Hp : Prec_gt_0 prec} {He : Prec_lt_emax prec emax}.
Notation fl := (binary_float prec emax).
Context {O : FOracle fl}.

Theorem C69_compare_symmetric : forall (a b : DualQuaternion fl) e,
  compare_dual_quaternions a b e = compare_dual_quaternions b a e.
Proof. exact c69_compare_symmetric. Qed.
Print Assumptions C69_compare_symmetric.

Theorem C69_compare_reflexive_iff : forall (a : DualQuaternion fl) e,
  compare_dual_quaternions a a e = true <-> Forall (fun x => is_nan x = false) (dqlist a).
Proof. exact c69_compare_reflexive_iff. Qed.
Print Assumptions C69_compare_reflexive_iff.

End F.
#[local] Instance prec53 : Prec_gt_0 53 := eq_refl.
#[local] Instance emax1024 : Prec_lt_emax 53 1024 := eq_refl.
#[local] Notation f64 := (binary_float 53 1024).
#[local] Notation "# n" := (fofZ n : f64) (at level 1).

(** size 4: the transpose of a product is not the product of the transposes;
    row 2 is summed in another order than the others *)
Theorem C67_transpose_mul4_refuted : exists (A B : mat f64 4),
  d_transpose D4 (d_mul D4 A B) <> d_mul D4 (d_transpose D4 B) (d_transpose D4 A).
Proof. exact c67_transpose_mul4_refuted. Qed.
Print Assumptions C67_transpose_mul4_refuted.
