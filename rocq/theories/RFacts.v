(** * RFacts: small facts about the real instance *)

From Coq Require Import List Arith Lia Bool Reals Lra.
From Verif Require Import Base Scalar Slices RingDet Spec InstR.
Import ListNotations.
Local Open Scope R_scope.

Section R.
Context {K : RConsts} (OK : RConstsOk K).

Lemma nearly_equal_0 x tol : nearly_equal x 0 tol = true <-> x = 0 \/ Rabs x < tol.
Proof.
  unfold nearly_equal. cbn [abs R_Signed eqb R_Num zero sub ltb R_POrd].
  destruct (Reqb_spec x 0) as [->|Hx].
  - split; auto.
  - replace (Reqb 0 0) with true by (symmetry; apply Reqb_true; reflexivity).
    cbn [orb]. rewrite Rltb_true, Rminus_0_r. split; [auto|intros [ | ]; [contradiction|assumption]].
Qed.

Lemma nearly_zero_iff (x : R) : nearly_zero x = true <-> Rabs x < r_eps.
Proof.
  unfold nearly_zero. cbn [zero epsilon R_Num R_Float]. rewrite nearly_equal_0.
  split; [intros [->|H]|auto]; [ |exact H]. rewrite Rabs_R0. apply (eps_pos K OK).
Qed.

Lemma nearly_zero_false (x : R) : nearly_zero x = false <-> r_eps <= Rabs x.
Proof.
  destruct (nearly_zero x) eqn:E.
  - apply nearly_zero_iff in E. split; [discriminate|lra].
  - split; [intros _|reflexivity]. destruct (Rle_lt_dec r_eps (Rabs x)); [assumption| ].
    apply nearly_zero_iff in r. congruence.
Qed.

Lemma nearly_zero_cases (x : R) :
  (nearly_zero x = true /\ Rabs x < r_eps) \/ (nearly_zero x = false /\ r_eps <= Rabs x /\ x <> 0).
Proof.
  destruct (nearly_zero x) eqn:E.
  - left. split; [reflexivity|now apply nearly_zero_iff].
  - right. apply nearly_zero_false in E. split; [reflexivity| ]. split; [exact E| ].
    intros ->. rewrite Rabs_R0 in E. pose proof (eps_pos K OK). lra.
Qed.

End R.
