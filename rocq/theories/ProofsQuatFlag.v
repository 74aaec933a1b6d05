(** * ProofsQuatFlag: C32, normalize / inverse / division and the cached flag *)

From Coq Require Import List Arith Lia Bool Reals Lra Psatz.
From Verif Require Import Base Scalar Vec Mat2 Mat3 Mat4 Mat6 Slices MatLoops MatOps Quat Transf
  DualQuat RingDet Spec Entries DetEntries InstR RFacts TrigFacts ProofsRing ProofsInverse ProofsNorm
  ProofsQuat ProofsRigid ProofsRot ProofsQuatR.
Import ListNotations.
Local Open Scope R_scope.

Section R.
Context {K : RConsts} (OK : RConstsOk K).
Notation Q := (Quaternion R).

(** the flag of [q] tells the truth *)
Definition honest (q : Q) : Prop := normalized q = true -> unit_quat q.

(** ** normalize *)

Lemma c32_normalize_none_iff : forall q : Q,
  q_normalize q = None <-> normalized q = false /\ sqrt (qnormsq q) < r_eps.
Proof.
  intros q. unfold q_normalize. rewrite q_norm2_sqrt.
  pose proof (sqrt_pos (qnormsq q)) as P.
  destruct (normalized q); [split; [discriminate|intros [H _]; discriminate H]| ].
  destruct (nearly_zero_cases OK (sqrt (qnormsq q))) as [[E L]|(E & L & _)]; rewrite E; cbn [negb];
    rewrite Rabs_pos_eq in L by exact P; split; try discriminate; auto; lra.
Qed.

(** a unit quaternion with the same direction *)
Lemma c32_normalize_some : forall q p : Q, honest q -> q_normalize q = Some p ->
  normalized p = true /\ unit_quat p
  /\ 0 < sqrt (qnormsq q) /\ qval (q_scale p (sqrt (qnormsq q))) = qval q.
Proof.
  intros q p H E. unfold q_normalize in E. destruct (normalized q) eqn:F.
  - injection E as <-. specialize (H F). unfold unit_quat in H. cbn [one R_Num] in H.
    split; [exact F|split; [exact H| ]]. rewrite H, sqrt_1. split; [lra| ]. clear. rr.
  - rewrite q_norm2_sqrt in E. pose proof (sqrt_sqrt _ (qnormsq_nonneg q)) as S.
    set (n := sqrt (qnormsq q)) in *.
    destruct (nearly_zero_cases OK n) as [[Z _]|(Z & _ & N)]; rewrite Z in E; cbn [negb] in E; [discriminate| ].
    injection E as <-. split; [reflexivity| ].
    assert (P : 0 < n) by (pose proof (sqrt_pos (qnormsq q)) as P; fold n in P; lra).
    split; [ |split; [exact P| ]].
    + unfold unit_quat. revert S N P. clear. clearbody n. rdes. rlazy. intros S N P.
      transitivity ((w * w + x * x + y * y + z * z) / (n * n)); [field; lra| ].
      rewrite <- S. field. lra.
    + revert N. clear. clearbody n. intros N. rdes. rlazy. rpairs; field; exact N.
Qed.

(** ** inverse and division *)

Lemma c32_inverse_none_iff : forall q : Q,
  q_inverse q = None <-> normalized q = false /\ qnormsq q < r_eps.
Proof.
  intros q. unfold q_inverse. destruct (c26_abs2 R_ring q) as (-> & _).
  pose proof (qnormsq_nonneg q) as P.
  destruct (normalized q); cbn [negb]; [split; [discriminate|intros [H _]; discriminate H]| ].
  destruct (nearly_zero_cases OK (qnormsq q)) as [[E L]|(E & L & _)]; rewrite E; cbn [negb];
    rewrite Rabs_pos_eq in L by exact P; split; try discriminate; auto; lra.
Qed.

Lemma c32_inverse_two_sided : forall q p : Q, honest q -> q_inverse q = Some p ->
  qval (q_mul q p) = (1, 0, 0, 0) /\ qval (q_mul p q) = (1, 0, 0, 0).
Proof.
  intros q p H E. unfold q_inverse in E. destruct (normalized q) eqn:F; cbn [negb] in E.
  - injection E as <-. specialize (H F). unfold unit_quat in H. cbn [one R_Num] in H.
    destruct (c26_abs2 R_ring q) as (_ & _ & -> & ->). rewrite H. split; reflexivity.
  - destruct (c26_abs2 R_ring q) as (A & _). rewrite A in E.
    destruct (nearly_zero_cases OK (qnormsq q)) as [[Z _]|(Z & _ & N)]; rewrite Z in E; cbn [negb] in E;
      [discriminate| ].
    injection E as <-. revert N. clear. rdes. rlazy. intros N.
    split; rpairs; field; exact N.
Qed.

Lemma c32_inverse_unique : forall q p p' : Q, honest q -> q_inverse q = Some p ->
  qval (q_mul q p') = (1, 0, 0, 0) -> qval p' = qval p.
Proof.
  intros q p p' H E E'. destruct (c32_inverse_two_sided q p H E) as [_ L].
  rewrite (c26_mul_hamilton R_ring) in *.
  assert (A : forall a b c d : Q, qval a = qval b -> qval c = qval d -> qval (q_mul a c) = qval (q_mul b d)).
  { intros a b c d X Y. rewrite !(c26_mul_hamilton R_ring), X, Y. reflexivity. }
  rewrite <- (c26_mul_hamilton R_ring) in *.
  transitivity (qval (q_mul q_one p')); [symmetry; apply (c26_mul_one R_ring)| ].
  transitivity (qval (q_mul (q_mul p q) p')).
  { apply A; [symmetry; exact L|reflexivity]. }
  rewrite (c26_mul_assoc R_ring). transitivity (qval (q_mul p q_one)).
  { apply A; [reflexivity|exact E']. }
  apply (c26_mul_one R_ring).
Qed.

Lemma c32_div_mul : forall p q r : Q, honest q -> q_div p q = Ok r ->
  qval (q_mul r q) = qval p.
Proof.
  intros p q r H E. unfold q_div in E. destruct (q_inverse q) as [i| ] eqn:I; cbn [unwrap bind] in E;
    [ |discriminate]. injection E as <-. destruct (c32_inverse_two_sided q i H I) as [_ L].
  rewrite (c26_mul_assoc R_ring), (c26_mul_hamilton R_ring), L. clear. rr.
Qed.

Lemma c32_div_panic_iff : forall p q : Q,
  q_div p q = Panic <-> normalized q = false /\ qnormsq q < r_eps.
Proof.
  intros p q. rewrite <- c32_inverse_none_iff. unfold q_div.
  destruct (q_inverse q); cbn [unwrap bind]; split; congruence.
Qed.

(** normalize_q always yields a flagged unit quaternion; below the tolerance it
    is the arbitrary value (0, x) *)
Lemma c32_normalize_q : forall q : Q,
  unit_quat (q_normalize_q q) /\ normalized (q_normalize_q q) = true
  /\ (r_eps < qnormsq q -> qval (q_scale (q_normalize_q q) (sqrt (qnormsq q))) = qval q)
  /\ (qnormsq q <= r_eps -> qval (q_normalize_q q) = (0, 1, 0, 0)).
Proof.
  intros q. unfold q_normalize_q.
  assert (D : q_dot q q = qnormsq q) by apply (c26_abs2 R_ring q). rewrite D.
  cbn [ltb R_POrd epsilon R_Float fsqrt]. pose proof (sqrt_sqrt _ (qnormsq_nonneg q)) as S.
  pose proof (eps_pos K OK) as He.
  destruct (Rltb_spec r_eps (qnormsq q)) as [L|L].
  - assert (P : 0 < sqrt (qnormsq q)) by (apply sqrt_lt_R0; lra).
    set (n := sqrt (qnormsq q)) in *. clearbody n. split; [ |split; [reflexivity|split; [ |intros; lra]]].
    + unfold unit_quat. revert S P. clear. rdes. rlazy. intros S P.
      transitivity ((w * w + x * x + y * y + z * z) / (n * n)); [field; lra| ].
      rewrite <- S. field. lra.
    + intros _. revert P. clear. intros P. rdes. rlazy. rpairs; field; lra.
  - split; [rlazy; ring|split; [reflexivity|split; [intros; contradiction|reflexivity]]].
Qed.

(** ** The flag of quaternions built through the API

    [api e q]: [q] can be obtained from the public functions that return
    quaternions; [e] says whether [exp], [sqrt] and [pow] are among them. (The
    real and dual parts of dual quaternions are themselves built from these
    functions, see DualQuat.v.) *)
Inductive api (e : bool) : Q -> Prop :=
| api_new a v : api e (q_new a v)
| api_new_from a b c d : api e (q_new_from a b c d)
| api_one : api e q_one
| api_zero : api e q_zero
| api_new_real a : api e (q_new_real a)
| api_new_imag v : api e (q_new_imag v)
| api_new_from_vec v : api e (q_new_from_vec v)
| api_add p q : api e p -> api e q -> api e (q_add p q)
| api_sub p q : api e p -> api e q -> api e (q_sub p q)
| api_mul p q : api e p -> api e q -> api e (q_mul p q)
| api_div p q r : api e p -> api e q -> q_div p q = Ok r -> api e r
| api_div_s p s : api e p -> api e (q_div_s p s)
| api_scale p s : api e p -> api e (q_scale p s)
| api_neg p : api e p -> api e (q_neg p)
| api_conj p : api e p -> api e (q_conj p)
| api_from_rotation m : api e (q_from_rotation m)
| api_normalize p q : api e p -> q_normalize p = Some q -> api e q
| api_rotation theta v q : q_rotation theta v = Ok q -> api e q
| api_norm_encoded v : api e (q_rotation_norm_encoded v)
| api_euler y p r : api e (q_from_euler_angles y p r)
| api_normalize_q p : api e p -> api e (q_normalize_q p)
| api_argq p : api e p -> api e (q_argq p)
| api_ln p : api e p -> api e (q_ln p)
| api_slerp p q t : api e p -> api e q -> api e (q_slerp p q t)
| api_derivative p v : api e p -> api e (q_derivative p v)
| api_inverse p q : api e p -> q_inverse p = Some q -> api e q
| api_sin p q : api e p -> q_sin p = Ok q -> api e q
| api_cos p : api e p -> api e (q_cos p)
| api_get_parts m : api e (fst (get_parts m))
| api_exp p : e = true -> api e p -> api e (q_exp p)
| api_sqrt p : e = true -> api e p -> api e (q_sqrt p)
| api_pow p q : e = true -> api e p -> api e q -> api e (q_pow p q).

Lemma exp_upper x : 0 <= x < 1 -> exp x <= / (1 - x).
Proof.
  intros H. pose proof (exp_ineq1_le (- x)) as E. rewrite exp_Ropp in E.
  pose proof (exp_pos x) as P.
  apply (Rmult_le_reg_r (1 - x)); [lra| ]. rewrite Rinv_l by lra.
  apply (Rmult_le_compat_l (exp x)) in E; [ |lra]. rewrite Rinv_r in E by lra. lra.
Qed.

(** the flag [exp] sets is right up to three epsilon *)
Lemma exp_flag (q : Q) : normalized (q_exp q) = true -> Rabs (qnormsq (q_exp q) - 1) <= 3 * r_eps.
Proof.
  unfold q_exp. cbn [normalized]. rewrite q_norm2_sqrt. cbn [ltb R_POrd epsilon R_Float].
  intros H. apply Rltb_true in H. pose proof (eps_pos K OK) as He. pose proof (eps_small K OK) as Hs.
  assert (N : qnormsq q < r_eps * r_eps).
  { pose proof (sqrt_sqrt _ (qnormsq_nonneg q)) as S. pose proof (sqrt_pos (qnormsq q)). nra. }
  rewrite qnormsq_dot, <- v3_norm2_sq in N. unfold q_abs_imag, q_imag, q_real.
  pose proof (v3_norm2_nonneg (Quat.q q)) as M0.
  set (m := v3_norm2 (Quat.q q)) in *. set (a := q0 q) in *.
  replace (Rltb r_eps m) with false by (symmetry; apply Rltb_false; nra).
  cbn [fexp fcos R_Float mul R_Num]. rewrite qnormsq_dot. cbn [q0 Quat.q].
  rewrite v3_dot_scale, <- v3_norm2_sq. fold m.
  assert (Ha : Rabs a < r_eps) by (apply Rabs_def1; nra). apply Rabs_def2 in Ha.
  assert (D : 0 <= m * m - sin m * sin m <= r_eps * r_eps).
  { assert (0 <= sin m <= m); [ |nra].
    split.
    - apply sin_ge_0; [lra| ]. pose proof PI2_1. nra.
    - destruct M0 as [M0|<-]; [left; now apply sin_lt_x|rewrite sin_0; lra]. }
  assert (E2 : exp a * exp a = exp (2 * a)) by (rewrite <- exp_plus; f_equal; ring).
  replace (exp a * cos m * (exp a * cos m) + exp a * exp a * (m * m))
    with (exp (2 * a) * (1 + (m * m - sin m * sin m)))
    by (rewrite <- E2; pose proof (sin2_cos2' m) as S;
        replace 1 with (sin m * sin m + cos m * cos m) by exact S; ring).
  set (dd := m * m - sin m * sin m) in *. clearbody dd.
  assert (L : 1 - 2 * r_eps <= exp (2 * a)) by (pose proof (exp_ineq1_le (2 * a)); lra).
  assert (U : exp (2 * a) <= 1 + 5 / 2 * r_eps).
  { apply Rle_trans with (exp (2 * r_eps)); [left; apply exp_increasing; lra| ].
    apply Rle_trans with (/ (1 - 2 * r_eps)); [apply exp_upper; lra| ].
    apply (Rmult_le_reg_r (1 - 2 * r_eps)); [lra| ]. rewrite Rinv_l by lra. nra. }
  apply Rabs_le. nra.
Qed.

Lemma api_cases e (q : Q) : api e q -> normalized q = true ->
  unit_quat q \/ (e = true /\ Rabs (qnormsq q - 1) <= 3 * r_eps).
Proof.
  induction 1; intros F; try discriminate F.
  - left. rlazy. ring.
  - unfold q_div in H1. destruct (q_inverse q); cbn [unwrap bind] in H1; [ |discriminate].
    injection H1 as <-. discriminate F.
  - unfold q_from_rotation in F. revert F.
    repeat match goal with |- context [if ?b then _ else _] => destruct b end; discriminate.
  - destruct (normalized p) eqn:Fp.
    + unfold q_normalize in H0. rewrite Fp in H0. injection H0 as <-. auto.
    + left. refine (proj1 (proj2 (c32_normalize_some p q _ H0))). intros X. congruence.
  - left. destruct (c29_rotation_panic_iff theta v) as [_ P].
    assert (N : v <> v3_zeros) by (intros E; specialize (P E); congruence).
    destruct (c29_rotation theta v N) as (q' & E & _ & U & _). congruence.
  - destruct (Rle_lt_dec r_eps (v3_norm2 v)) as [L|L].
    + left. pose proof (c29_norm_encoded OK v L) as E.
      assert (N : v <> v3_zeros).
      { intros Z. apply v3_norm2_zero in Z. pose proof (eps_pos K OK). lra. }
      destruct (c29_rotation (v3_norm2 v) v N) as (q' & E' & _ & U & _). congruence.
    + rewrite (c29_norm_encoded_tiny OK v L) in F. discriminate F.
  - left. apply c30_from_euler_angles.
  - left. apply c32_normalize_q.
  - left. apply c32_normalize_q.
  - unfold q_ln in F. destruct (q_normalize_a p) as [n a].
    revert F. repeat match goal with |- context [if ?b then _ else _] => destruct b end; discriminate.
  - revert F. unfold q_slerp. cbv zeta.
    destruct (leb (one : R) _); [auto| ].
    destruct (ltb (_ : R) zero); cbv beta iota; cbn [negb];
    destruct (ltb (_ : R) _); intros F; discriminate F.
  - unfold q_inverse in H0. destruct (negb (normalized p)).
    + destruct (negb (nearly_zero (q_abs2 p))); [ |discriminate]. injection H0 as <-. discriminate F.
    + injection H0 as <-. discriminate F.
  - unfold q_sin, q_div in H0. destruct (q_inverse _); cbn [unwrap bind] in H0; [ |discriminate].
    injection H0 as <-. discriminate F.
  - left. unfold get_parts. destruct (rotation_to_euler _) as [[y p] r]. cbn [fst].
    apply c30_from_euler_angles.
  - right. split; [assumption|now apply exp_flag].
  - right. split; [assumption|now apply exp_flag].
  - right. split; [assumption|now apply exp_flag].
Qed.

(** without [exp], [sqrt] and [pow] the flag is always right *)
Lemma c32_flag_partial : forall q : Q, api false q -> honest q.
Proof.
  intros q H F. destruct (api_cases false q H F) as [U|[E _]]; [exact U|discriminate E].
Qed.

(** with them it is right up to three epsilon *)
Lemma c32_flag_approx : forall q : Q, api true q -> normalized q = true ->
  Rabs (qnormsq q - 1) <= 3 * r_eps.
Proof.
  intros q H F. destruct (api_cases true q H F) as [U|[_ E]]; [ |exact E].
  rewrite U. cbn [one R_Num]. rewrite Rminus_diag_eq, Rabs_R0 by reflexivity.
  pose proof (eps_pos K OK). lra.
Qed.

(** but not exactly: [exp] of a tiny real quaternion is flagged although its
    norm is not one, and its [inverse] is not an inverse *)
Lemma c32_flag_refuted : exists q : Q, api true q /\ normalized q = true /\ qnormsq q <> 1
  /\ exists p, q_inverse q = Some p /\ qval (q_mul q p) <> (1, 0, 0, 0).
Proof.
  pose proof (eps_pos K OK) as He. pose proof (eps_small K OK) as Hs.
  exists (q_exp (q_new_real (r_eps / 2))).
  assert (M : v3_norm2 (v3_zeros : V3 R) = 0) by (now apply v3_norm2_zero).
  assert (F : normalized (q_exp (q_new_real (r_eps / 2))) = true).
  { unfold q_exp. cbn [normalized]. rewrite q_norm2_sqrt. cbn [ltb R_POrd epsilon R_Float].
    apply Rltb_true.
    replace (qnormsq (q_new_real (r_eps / 2))) with (r_eps / 2 * (r_eps / 2)) by (rlazy; ring).
    rewrite sqrt_square; lra. }
  assert (N : qnormsq (q_exp (q_new_real (r_eps / 2))) = exp r_eps).
  { unfold q_exp, q_abs_imag, q_imag, q_real, q_new_real. cbn [q0 Quat.q]. rewrite M.
    cbn [ltb R_POrd epsilon R_Float fexp fcos mul R_Num]. rewrite qnormsq_dot. cbn [q0 Quat.q].
    rewrite v3_dot_scale, <- v3_norm2_sq, M, cos_0.
    transitivity (exp (r_eps / 2) * exp (r_eps / 2)); [ring| ].
    rewrite <- exp_plus. f_equal. field. }
  assert (G : 1 < exp r_eps) by (pose proof (exp_ineq1_le r_eps); lra).
  split; [apply api_exp; [reflexivity|apply api_new_real]| ]. split; [exact F| ].
  split; [rewrite N; lra| ].
  exists (q_conj (q_exp (q_new_real (r_eps / 2)))).
  split; [unfold q_inverse; rewrite F; reflexivity| ].
  destruct (c26_abs2 R_ring (q_exp (q_new_real (r_eps / 2)))) as (_ & _ & -> & _). rewrite N.
  intros E. apply (f_equal (fun z => fst (fst (fst z)))) in E. cbn [fst] in E. lra.
Qed.

End R.

(** ** Concrete cases *)
Section Examples.
Let K := f64_consts.
Example C32_inverse_example :
  q_inverse (fT := R_Float K) (q_new_from 1 1 1 1) = Some (q_div_s (q_new_from 1 (-1) (-1) (-1)) 4)
  /\ honest (q_new_from 1 1 1 1).
Proof.
  split; [ |intros E; discriminate E]. unfold q_inverse. cbn [normalized q_new_from negb].
  replace (q_abs2 (mkQ 1 [| 1; 1; 1 |] false)) with 4 by (rlazy; ring).
  replace (nearly_zero 4) with false.
  2:{ symmetry. apply (nearly_zero_false (K := K) f64_consts_ok). rewrite Rabs_pos_eq by lra.
      pose proof (eps_small K f64_consts_ok). lra. }
  reflexivity.
Qed.
Example C32_api_example : let e := q_from_euler_angles (fT := R_Float K) in
  api (K := K) false (q_mul (e 1 2 3) (e 3 2 1)).
Proof. intros e. apply api_mul; apply api_euler. Qed.
End Examples.
