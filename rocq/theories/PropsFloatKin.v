(** * PropsFloatKin: planar motions, screw axes and quaternion derivatives on floats (C107) *)

From Coq Require Import List Arith ZArith Reals Bool Lra Lia.
From Flocq Require Import Core Relative Sterbenz Mult_error IEEE754.BinarySingleNaN.
From Verif Require Import Base Scalar Vec Mat2 Mat3 Mat4 Mat5 Mat6 Slices MatLoops MatOps Quat Transf DualQuat RingDet Spec LoopFacts Entries InstZ InstR RFacts TrigFacts LUFacts QRFacts ProofsRing ProofsQuat ProofsRot ProofsRigid ProofsEuler ProofsSlerp ProofsQuatR InstF FloatFacts ProofsFloat ProofsFloat2 ProofsFloatErr ProofsFloatInv ProofsFloatNorm ProofsFloatRot ProofsFloatDrift ProofsFloatRigid ProofsFloatDQ ProofsFloatFromRot ProofsFloatRotH ProofsFloatQR ExpSeries ProofsExp ProofsFloatAngles ProofsFloatChain.
From Verif Require Import ProofsFloatKin.
(** Concrete cases meeting the hypotheses: the Examples of ProofsFloatKin.v and of Cases.v. *)
Local Open Scope R_scope.

Section F.
Context {prec emax : Z} {Hp : Prec_gt_0 prec} {He : Prec_lt_emax prec emax} {O : FOracle (binary_float prec emax)}.
Notation fl := (binary_float prec emax).
Notation uro := (uro (prec := prec)).
Notation eta := (eta (prec := prec) (emax := emax)).
Hypothesis Hp11 : (11 <= prec)%Z.
Hypothesis He4 : (4 * prec <= emax)%Z.

Theorem C107_derivative : forall (a : Quaternion fl) (w : V3 fl), (forall k, (k < 3)%nat -> is_finite (vfun w k) = true) ->
  (forall k, (k < 4)%nat -> is_finite (qcomp k (q_derivative a w)) = true) ->
  let A := fun k => B2R (qcomp k a) in let W := fun k => B2R (vfun w k) in let D := fun k => B2R (qcomp k (q_derivative a w)) in
  let K := (403 / 100 * uro * nrm 3 W + 175 / 100 * eta) * nrm 4 A + 9 * eta in
  nrm 4 (fun k => D k - / 2 * comp4 k (hamilton (h4 (emb W)) (h4 A))) <= K /\ Rabs (sumn 4 (fun k => A k * D k)) <= nrm 4 A * K.
Proof. exact (c107_derivative Hp11 He4). Qed.
Print Assumptions C107_derivative.

Theorem C107_screw_to_axis : forall (p s : V3 fl) (h : fl), let r := screw_to_axis p s h in
  (forall i, (i < 3)%nat -> vfun r i = vfun s i) /\
  forall i, (i < 3)%nat -> is_finite (vfun r (3 + i)) = true ->
  let P := fun i => B2R (vfun p i) in let S := fun i => B2R (vfun s i) in
  let j := Nat.modulo (i + 1) 3 in let k := Nat.modulo (i + 2) 3 in
  Rabs (B2R (vfun r (3 + i)) - (P j * S k - P k * S j + B2R h * S i))
  <= ((1 + uro) ^ 3 - 1) * (Rabs (P j * S k) + Rabs (P k * S j) + Rabs (B2R h * S i)) + (1 + uro) ^ 3 * (3 * eta).
Proof. exact c107_screw_to_axis. Qed.
Print Assumptions C107_screw_to_axis.

Theorem C107_rot2 : forall e (a : fl) (p : V2 fl), trig_ok e a -> e <= 1 -> fits (vfun p 0) -> fits (vfun p 1) -> let r := m22_mul_v (rot2 a) p in
  let x := B2R (vfun p 0) in let y := B2R (vfun p 1) in let t := B2R a in let K := (e + 201 / 100 * uro * (1 + e)) * (Rabs x + Rabs y) + 21 / 10 * eta in
  (forall i, (i < 2)%nat -> is_finite (vfun r i) = true) /\ Rabs (B2R (vfun r 0) - (cos t * x - sin t * y)) <= K /\ Rabs (B2R (vfun r 1) - (sin t * x + cos t * y)) <= K.
Proof. exact (c107_rot2 Hp11 He4). Qed.
Print Assumptions C107_rot2.

Theorem C107_ksi : forall e (a dx dy px py : fl), trig_ok e a -> e <= 1 -> fits dx -> fits dy -> fits px -> fits py -> let r := m33_mul_v (ksi a dx dy) [| px; py; one |] in
  let x := B2R px in let y := B2R py in let t := B2R a in
  let K := fun d => e * (Rabs x + Rabs y) + 302 / 100 * uro * ((1 + e) * (Rabs x + Rabs y) + Rabs d) + 31 / 10 * eta in
  (forall i, (i < 3)%nat -> is_finite (vfun r i) = true) /\ Rabs (B2R (vfun r 0) - (cos t * x - sin t * y + B2R dx)) <= K (B2R dx) /\ Rabs (B2R (vfun r 1) - (sin t * x + cos t * y + B2R dy)) <= K (B2R dy) /\
  B2R (vfun r 2) = 1.
Proof. exact (c107_ksi Hp11 He4). Qed.
Print Assumptions C107_ksi.

End F.
