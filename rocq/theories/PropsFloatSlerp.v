(** * PropsFloatSlerp: spherical interpolation of float quaternions (C101) *)

From Coq Require Import List Arith ZArith Reals Bool Lra Lia.
From Flocq Require Import Core Relative Sterbenz Mult_error IEEE754.BinarySingleNaN.
From Verif Require Import Base Scalar Vec Mat2 Mat3 Mat4 Mat5 Mat6 Slices MatLoops MatOps Quat Transf DualQuat RingDet Spec LoopFacts Entries InstZ InstR RFacts TrigFacts LUFacts QRFacts ProofsRing ProofsQuat ProofsRot ProofsRigid ProofsEuler ProofsSlerp InstF FloatFacts ProofsFloat ProofsFloat2 ProofsFloatErr ProofsFloatInv ProofsFloatNorm ProofsFloatRot ProofsFloatDrift ProofsFloatRigid ProofsFloatDQ ProofsFloatFromRot ProofsFloatRotH ProofsFloatQR ExpSeries ProofsExp ProofsFloatAngles ProofsFloatEuler ProofsFloatLog ProofsFloatScrew.
From Verif Require Import ProofsFloatSlerp.
(** Concrete cases meeting the hypotheses: the Examples of ProofsFloatSlerp.v and of Cases.v. *)
Local Open Scope R_scope.

Section F.
Context {prec emax : Z} {Hp : Prec_gt_0 prec} {He : Prec_lt_emax prec emax} {O : FOracle (binary_float prec emax)}.
Notation fl := (binary_float prec emax).
Notation uro := (uro (prec := prec)).
Notation eta := (eta (prec := prec) (emax := emax)).
Hypothesis Hp11 : (11 <= prec)%Z.
Hypothesis He4 : (4 * prec <= emax)%Z.

Theorem C101_slerp_partial : forall e E (a b : Quaternion fl) (t : fl) (A W : Quaternion R) (sg : bool) h, unit_quat A -> unit_quat W -> qinner A W = 0 -> 0 < h < PI / 2 ->
  close4 E a A -> close4 E b (either sg (arc A W h)) -> acos_ok e -> is_finite (lit_1em3 : fl) = true -> 2 * B2R (lit_1em3 : fl) <= sin h -> is_finite t = true -> 0 <= B2R t <= 1 ->
  100 * (E + e + 5 * uro) <= sin h * sin h -> 3 * E + 6 * uro <= cos h ->
  close4 ((12 * E + 5 * e + 60 * uro) / (sin h * sin h)) (q_slerp a b t) (arc A W (B2R t * h)).
Proof. exact (c101_slerp_partial Hp11 He4). Qed.
Print Assumptions C101_slerp_partial.

End F.
#[local] Instance prec53 : Prec_gt_0 53 := eq_refl.
#[local] Instance emax1024 : Prec_lt_emax 53 1024 := eq_refl.
#[local] Notation f64 := (binary_float 53 1024).
#[local] Notation u53 := (FloatFacts.uro (prec := 53)).

Theorem C101_same_refuted : exists (a b : Quaternion f64) (A B : Quaternion R), unit_quat A /\ unit_quat B /\ close4 u53 a A /\ close4 u53 b B /\
  forall O : FOracle f64, q_slerp a b (i64 1) = a /\ forall sg, far4 (10 ^ 7 * u53) (q_slerp a b (i64 1)) (either sg B).
Proof. exact c101_same_refuted. Qed.
Print Assumptions C101_same_refuted.

(** opposite signs: the zero quaternion, for every parameter *)
Theorem C101_zero_refuted : exists (a b : Quaternion f64) (A B : Quaternion R), unit_quat A /\ unit_quat B /\ close4 u53 a A /\ close4 u53 b B /\
  forall O : FOracle f64, lit_ok O -> forall t, q_slerp a b t = q_zero.
Proof. exact c101_zero_refuted. Qed.
Print Assumptions C101_zero_refuted.

(** same signs: the second and third imaginary components of the target change places *)
Theorem C101_swapped_refuted : exists (a b : Quaternion f64) (A B : Quaternion R), unit_quat A /\ unit_quat B /\ close4 u53 a A /\ close4 u53 b B /\
  forall O : FOracle f64, lit_ok O -> q_slerp a b (i64 0) = a /\ forall sg, far4 (48 / 100000) (q_slerp a b (i64 1)) (either sg B).
Proof. exact c101_swapped_refuted. Qed.
Print Assumptions C101_swapped_refuted.
