(** * PropsFloatDrift: long products of nearly unit quaternions on floats (C91) *)

From Coq Require Import List Arith ZArith Reals Bool Lra Lia.
From Flocq Require Import Core Relative Sterbenz IEEE754.BinarySingleNaN.
From Verif Require Import Base Scalar Vec Mat2 Mat3 Mat4 Mat5 Mat6 Slices MatLoops MatOps Quat Transf RingDet Spec LoopFacts Entries InstZ InstR RFacts LUFacts QRFacts ProofsRing ProofsQuat InstF FloatFacts ProofsFloat ProofsFloat2 ProofsFloatErr ProofsFloatInv ProofsFloatNorm ProofsFloatRot.
From Verif Require Import ProofsFloatDrift.
(** Concrete cases meeting the hypotheses: the Examples of ProofsFloatDrift.v and of Cases.v. *)
Local Open Scope R_scope.

Section F.
Context {prec emax : Z} {Hp : Prec_gt_0 prec} {He : Prec_lt_emax prec emax} {O : FOracle (binary_float prec emax)}.
Notation fl := (binary_float prec emax).
Notation uro := (uro (prec := prec)).
Notation eta := (eta (prec := prec) (emax := emax)).
Hypothesis Hp11 : (11 <= prec)%Z.
Hypothesis He4 : (4 * prec <= emax)%Z.

Theorem C91_product_drift : forall dl (bs : list (Quaternion fl)) (a : Quaternion fl), near_unit dl a -> Forall (near_unit dl) bs ->
  let n := INR (length bs) in (n + 1) * (dl + 9 * uro) <= / 100 ->
  let p := fold_left q_mul bs a in
  near_unit (102 / 100 * (dl + n * (dl + 9 * uro))) p /\
  nrm 4 (fun k => qR p k - hprod bs (qR a) k) <= 9 * n * uro * (1 + dl) ^ length bs.
Proof. exact (c91_product_drift Hp11 He4). Qed.
Print Assumptions C91_product_drift.

(** every product of up to [n] normalized quaternions is a rotation up to a small multiple of [n u] *)
Theorem C91_product_rotation : forall dl (bs : list (Quaternion fl)) (a : Quaternion fl), near_unit dl a -> Forall (near_unit dl) bs ->
  let n := INR (length bs) in (n + 1) * (dl + 9 * uro) <= / 250 ->
  let p := fold_left q_mul bs a in let X := fun i j => B2R (mfun (q_to_rotation p) i j) in
  (forall i j, (i < 3)%nat -> (j < 3)%nat -> is_finite (mfun (q_to_rotation p) i j) = true) /\
  (forall i j, (i < 3)%nat -> (j < 3)%nat ->
    Rabs (X 0%nat i * X 0%nat j + X 1%nat i * X 1%nat j + X 2%nat i * X 2%nat j - (if Nat.eqb i j then 1 else 0)) <= 42 / 10 * (n + 1) * (dl + 9 * uro) + 25 * uro) /\
  is_finite (m33_det (q_to_rotation p)) = true /\ Rabs (B2R (m33_det (q_to_rotation p)) - 1) <= 63 / 10 * (n + 1) * (dl + 9 * uro) + 108 * uro.
Proof. exact (c91_product_rotation Hp11 He4). Qed.
Print Assumptions C91_product_rotation.

Theorem C91_compose_matrices : forall dl (a b : Quaternion fl), near_unit dl a -> near_unit dl b -> dl + 9 * uro <= / 500 ->
  forall i j, (i < 3)%nat -> (j < 3)%nat ->
  Rabs (B2R (mfun (q_to_rotation (q_mul a b)) i j) - sumn 3 (fun k => B2R (mfun (q_to_rotation a) i k) * B2R (mfun (q_to_rotation b) k j))) <= 50 * uro.
Proof. exact (c91_compose_matrices Hp11 He4). Qed.
Print Assumptions C91_compose_matrices.

(** rotating by the product is rotating twice *)
Theorem C91_compose_vectors : forall dl (a b : Quaternion fl) (v : V3 fl), near_unit dl a -> near_unit dl b -> dl + 9 * uro <= / 500 ->
  (forall k, (k < 3)%nat -> is_finite (vfun v k) = true /\ Rabs (B2R (vfun v k)) <= bpow radix2 (emax - 10)) ->
  let x := q_mul_v (q_mul a b) v in let y := q_mul_v a (q_mul_v b v) in
  (forall k, (k < 3)%nat -> is_finite (vfun x k) = true /\ is_finite (vfun y k) = true) /\
  nrm 3 (fun k => B2R (vfun x k) - B2R (vfun y k)) <= (9 * dl + 650 * uro) * nrm 3 (fun k => B2R (vfun v k)) + 45 * eta.
Proof. exact (c91_compose_vectors Hp11 He4). Qed.
Print Assumptions C91_compose_vectors.

(** what normalize() returns qualifies *)
Theorem C91_normalize_near : forall (a b : Quaternion fl), normalized a = false -> is_finite (q_norm2 a) = true -> q_normalize a = Some b -> near_unit (9 * uro) b.
Proof. exact (c91_normalize_near Hp11 He4). Qed.
Print Assumptions C91_normalize_near.

End F.
