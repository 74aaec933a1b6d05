(** * ProofsQuatSeries: exp, sin and cos of quaternions are the power series (C79) *)

From Coq Require Import List Arith Lia Bool Reals Lra Psatz.
From Verif Require Import Base Scalar Vec Mat2 Mat3 Mat4 Mat6 Slices MatLoops MatOps Quat Transf
  DualQuat RingDet Spec Entries DetEntries InstR RFacts TrigFacts ExpSeries ProofsRing ProofsInverse ProofsNorm
  ProofsQuat ProofsRigid ProofsRot ProofsQuatR ProofsQuatFlag ProofsQuatExp.
From Verif Require QSeries.
Local Open Scope R_scope.

(** Specification: powers by Hamilton's product, and the sum of a series of
    quaternions, component by component *)
Fixpoint hpow (z : R * R * R * R) (n : nat) : R * R * R * R :=
  match n with O => (1, 0, 0, 0) | S n => hamilton z (hpow z n) end.
Definition hcomp (c : nat) (z : R * R * R * R) : R :=
  let '(a, b, d, e) := z in match c with 0%nat => a | 1%nat => b | 2%nat => d | _ => e end.
Definition hsum (coef : nat -> R) (term : nat -> R * R * R * R) (e : R * R * R * R) : Prop :=
  forall c, (c < 4)%nat -> infinite_sum (fun n => coef n * hcomp c (term n)) (hcomp c e).
(** q^0/0! + q^1/1! + q^2/2! + ... *)
Definition is_qexp (z e : R * R * R * R) : Prop := hsum (fun n => / INR (fact n)) (hpow z) e.
(** 1 - q^2/2! + q^4/4! - ... and q - q^3/3! + q^5/5! - ... *)
Definition is_qcos (z e : R * R * R * R) : Prop :=
  hsum (fun n => (-1) ^ n / INR (fact (2 * n))) (fun n => hpow z (2 * n)) e.
Definition is_qsin (z e : R * R * R * R) : Prop :=
  hsum (fun n => (-1) ^ n / INR (fact (2 * n + 1))) (fun n => hpow z (2 * n + 1)) e.

(** in the plane of 1 and a unit vector, the powers are those of a complex number *)
Lemma hpow_plane x s u n : unit3 u ->
  hpow (x, s * vfun u 0, s * vfun u 1, s * vfun u 2) n
  = (fst (QSeries.cpow x s n), snd (QSeries.cpow x s n) * vfun u 0,
     snd (QSeries.cpow x s n) * vfun u 1, snd (QSeries.cpow x s n) * vfun u 2).
Proof.
  intros U. induction n as [ |n IH]; [cbn; rpairs; ring| ].
  cbn [hpow QSeries.cpow]. rewrite IH. cbn [fst snd].
  generalize (fst (QSeries.cpow x s n)) (snd (QSeries.cpow x s n)). unfold unit3 in U. revert U. clear.
  rdes. rlazy. intros U c d. rpairs; try ring.
  transitivity (x * c - s * d * (x0 * x0 + y * y + z * z)); [ring|rewrite U; ring].
Qed.

(** a series in that plane *)
Lemma hsum_plane coef (term : nat -> R * R * R * R) (f g : nat -> R) a b (u : V3 R) :
  (forall n, term n = (f n, g n * vfun u 0, g n * vfun u 1, g n * vfun u 2)) ->
  infinite_sum (fun n => coef n * f n) a -> infinite_sum (fun n => coef n * g n) b ->
  hsum coef term (a, b * vfun u 0, b * vfun u 1, b * vfun u 2).
Proof.
  intros H A B.
  assert (S : forall k, infinite_sum (fun n => coef n * (g n * k)) (b * k)).
  { intros k. replace (b * k) with (k * b + 0) by ring.
    apply (infinite_sum_affine (fun n => coef n * g n)); [ |exact B]. intros n. destruct (Nat.eqb n 0); ring. }
  intros c Hc. unfold hcomp.
  apply (infinite_sum_ext (fun n => coef n * match c with 0%nat => f n | 1%nat => g n * vfun u 0
     | 2%nat => g n * vfun u 1 | _ => g n * vfun u 2 end)).
  - intros n. rewrite H. reflexivity.
  - all_lt c Hc; auto.
Qed.

Lemma hsum_unique coef term e f : hsum coef term e -> hsum coef term f -> e = f.
Proof.
  intros E F. destruct e as [[[e0 e1] e2] e3], f as [[[f0 f1] f2] f3].
  assert (G : forall c, (c < 4)%nat -> hcomp c (e0, e1, e2, e3) = hcomp c (f0, f1, f2, f3)).
  { intros c Hc. exact (uniqueness_sum _ _ _ (E c Hc) (F c Hc)). }
  rewrite (G 0%nat ltac:(lia) : e0 = f0), (G 1%nat ltac:(lia) : e1 = f1),
    (G 2%nat ltac:(lia) : e2 = f2), (G 3%nat ltac:(lia) : e3 = f3). reflexivity.
Qed.

Section R.
Context {K : RConsts} (OK : RConstsOk K).
Notation Q := (Quaternion R).

Lemma qval_direction (q : Quaternion R) : exists u, unit3 u /\
  qval q = (q0 q, v3_norm2 (Quat.q q) * vfun u 0, v3_norm2 (Quat.q q) * vfun u 1, v3_norm2 (Quat.q q) * vfun u 2).
Proof.
  destruct (v3_direction (Quat.q q)) as (u & U & E). exists u. split; [exact U| ].
  apply v3_eq_scale in E. unfold qval. injection E as -> -> ->. reflexivity.
Qed.

(** [exp] is the exponential series (every series has at most one sum, [hsum_unique]) *)
Lemma c79_exp_series : forall q : Q,
  v3_norm2 (Quat.q q) = 0 \/ r_eps < v3_norm2 (Quat.q q) -> is_qexp (qval q) (qval (q_exp q)).
Proof.
  intros q H. destruct (qval_direction q) as (u & U & V). set (m := v3_norm2 (Quat.q q)) in *.
  assert (P : 0 <= m) by apply v3_norm2_nonneg.
  rewrite (c33_exp_polar OK q (q0 q) m u U) by (try exact V; rewrite Rabs_pos_eq; assumption).
  rewrite V. unfold qpolar. destruct (QSeries.cexp_series (q0 q) m) as [A B].
  apply (hsum_plane _ _ (fun n => fst (QSeries.cpow (q0 q) m n)) (fun n => snd (QSeries.cpow (q0 q) m n))).
  - intros n. apply hpow_plane, U.
  - revert A. apply infinite_sum_ext. intros k. unfold Rdiv. ring.
  - revert B. apply infinite_sum_ext. intros k. unfold Rdiv. ring.
Qed.

Lemma c79_sin_cos_series : forall q : Q,
  v3_norm2 (Quat.q q) = 0 \/ r_eps < v3_dot (Quat.q q) (Quat.q q) ->
  q0 q = 0 \/ r_eps < Rabs (q0 q) ->
  is_qcos (qval q) (qval (q_cos q)) /\ exists s, q_sin q = Ok s /\ is_qsin (qval q) (qval s).
Proof.
  intros q D1 D2. destruct (qval_direction q) as (u & U & V). set (m := v3_norm2 (Quat.q q)) in *.
  assert (P : 0 <= m) by apply v3_norm2_nonneg.
  rewrite <- v3_norm2_sq in D1. fold m in D1.
  destruct (c55_sin_cos OK q (q0 q) m u U P D1 D2 V) as [(s & S & ES) EC].
  split; [ |exists s; split; [exact S| ]]; rewrite V.
  - rewrite EC. destruct (QSeries.ccos_series (q0 q) m) as [A B].
    apply (hsum_plane _ _ (fun n => fst (QSeries.cpow (q0 q) m (2 * n))) (fun n => snd (QSeries.cpow (q0 q) m (2 * n))));
      [intros n; apply hpow_plane, U|exact A|exact B].
  - rewrite ES. destruct (QSeries.csin_series (q0 q) m) as [A B].
    apply (hsum_plane _ _ (fun n => fst (QSeries.cpow (q0 q) m (2 * n + 1))) (fun n => snd (QSeries.cpow (q0 q) m (2 * n + 1))));
      [intros n; apply hpow_plane, U|exact A|exact B].
Qed.
End R.

(** ** Concrete cases *)
Section Examples.
#[local] Existing Instance f64_consts.
Example C79_exp_case : is_qexp (1, 0, 3, 4) (qval (q_exp (q_new_from 1 0 3 4)))
  /\ hcomp 0 (hpow (1, 0, 3, 4) 2) = -24.
Proof.
  split; [ |cbn; ring]. apply (c79_exp_series f64_consts_ok (q_new_from 1 0 3 4)). right.
  pose proof (eps_small _ f64_consts_ok).
  rewrite (c18_norm2_dot D3 (Quat.q (q_new_from 1 0 3 4)) : v3_norm2 (Quat.q (q_new_from 1 0 3 4)) = sqrt (v3_dot (Quat.q (q_new_from 1 0 3 4)) (Quat.q (q_new_from 1 0 3 4)))).
  replace (v3_dot _ _) with (5 * 5) by (rlazy; ring). rewrite sqrt_square; lra.
Qed.
Example C79_cos_case : is_qcos (1, 0, 3, 4) (qval (q_cos (q_new_from 1 0 3 4))).
Proof.
  pose proof (eps_small _ f64_consts_ok).
  apply (c79_sin_cos_series f64_consts_ok (q_new_from 1 0 3 4)); right.
  - replace (v3_dot _ _) with (5 * 5) by (rlazy; ring). lra.
  - cbn [q0 q_new_from]. rewrite Rabs_R1. lra.
Qed.
End Examples.
