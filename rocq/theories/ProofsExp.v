(** * ProofsExp: C44-C46, exponential and logarithm on SO(3) and SE(3) *)

From Coq Require Import List Arith Lia Bool Reals Lra Psatz Nsatz.
From Verif Require Import Base Scalar Vec Mat2 Mat3 Mat4 Mat6 Slices MatLoops MatOps Quat Transf
  DualQuat RingDet Spec Entries DetEntries InstR RFacts TrigFacts ProofsRing ProofsInverse ProofsNorm
  ProofsQuat ProofsRigid ProofsRot ProofsQuatR ProofsQuatFlag ProofsQuatExp ProofsSlerp ProofsDual ExpSeries.
Import ListNotations.
Local Open Scope R_scope.

Section R.
Context {K : RConsts} (OK : RConstsOk K).

(** ** Rodrigues' formula *)

Lemma rodrigues_skew (u : V3 R) a : unit3 u ->
  m33_add (m33_add m33_identity (m33_scale (skew_from_vec u) (sin a)))
          (m33_scale (m33_mul (skew_from_vec u) (skew_from_vec u)) (1 - cos a)) = rodrigues u a.
Proof.
  unfold unit3, rodrigues. cbv zeta. generalize (cos a) (sin a). intros c s. destruct u as (x & y & z & []).
  rlazy. intros U. 
  assert (X : x * x = 1 - y * y - z * z) by lra.
  apply (f_equal (Rmult c)) in X as Xc. rpairs; lra.
Qed.

Lemma c44_axis_angle_rodrigues : forall (w : V3 R) theta, unit3 w ->
  rotation_from_axis_angle w theta = rodrigues w theta /\ SO3 (rotation_from_axis_angle w theta).
Proof.
  intros w theta U. assert (E : rotation_from_axis_angle w theta = rodrigues w theta) by (rewrite <- (rodrigues_skew w theta U); reflexivity).
  split; [exact E|rewrite E; apply rodrigues_SO3; exact U].
Qed.

(** the exponential as Rodrigues' matrix about the direction of [w] *)
Lemma matrix_exponential_value (u : V3 R) t : unit3 u -> r_eps <= t ->
  matrix_exponential (skew_from_vec (v3_scale u t)) = Ok (rodrigues u t).
Proof.
  intros U L. pose proof (eps_pos K OK) as E0.
  unfold matrix_exponential, axis_angle. rewrite c43_skew_round_trip.
  assert (N : v3_norm2 (v3_scale u t) = t).
  { rewrite v3_norm2_scale, (unit3_norm u U), Rabs_pos_eq by lra. ring. }
  rewrite N. replace (nearly_zero t) with false.
  2:{ symmetry. apply (nearly_zero_false OK). rewrite Rabs_pos_eq; lra. }
  rewrite v3_normalize_eq.
  2:{ intros E. apply v3_norm2_zero in E. lra. }
  cbn [unwrap bind snd fsin fcos sin_cos R_Float one sub R_Num]. f_equal.
  rewrite <- (rodrigues_skew u t U). 
  replace (m33_div (skew_from_vec (v3_scale u t)) t) with (skew_from_vec u); [reflexivity| ].
  assert (T : t <> 0) by lra. revert T. clear. intros T. destruct u as (x & y & z & []). rlazy. rpairs; field; exact T.
Qed.

Lemma skew_form (A : M33 R) : skew3 A -> A = skew_from_vec (skew_to_vec A).
Proof.
  intros H. symmetry. apply c43_skew_from_to; [exact H| ]. intros i Hi. specialize (H i i Hi Hi).
  cbn [neg R_Signed zero R_Num] in *. lra.
Qed.

(** the sum of the exponential series of a skew matrix *)
Lemma mpow_skew (w : V3 R) i j : (i < 3)%nat -> (j < 3)%nat ->
  let A := mfun (skew_from_vec w) in
  mpow 3 A 1 i j = A i j
  /\ mpow 3 A 2 i j = mfun (m33_mul (skew_from_vec w) (skew_from_vec w)) i j
  /\ mpow 3 A 3 i j = - (v3_dot w w) * A i j
  /\ mpow 3 A 4 i j = - (v3_dot w w) * mpow 3 A 2 i j.
Proof.
  intros Hi Hj A. unfold A. clear A. destruct w as (x & y & z & []).
  all_lt i Hi; all_lt j Hj; rlazy; repeat split; ring.
Qed.

Lemma mexp_skew (w : V3 R) : w <> v3_zeros -> let t := v3_norm2 w in let A := skew_from_vec w in
  is_mexp 3 (mfun A) (mfun (m33_add (m33_add m33_identity (m33_scale A (sin t / t)))
                                    (m33_scale (m33_mul A A) ((1 - cos t) / (t * t))))).
Proof.
  intros N t A.
  assert (T : t <> 0) by (intros E; apply v3_norm2_zero in E; contradiction).
  eapply is_mexp_ext; [ |apply (mexp_closed 3 _ t T)].
  - intros i j Hi Hj. destruct (mpow_skew w i j Hi Hj) as (P1 & P2 & P3 & _).
    fold A in P1, P2, P3. rewrite P1, P2, P3, <- v3_norm2_sq. fold t.
    change (mfun (m33_add (m33_add m33_identity (m33_scale A (sin t / t))) (m33_scale (m33_mul A A) ((1 - cos t) / (t * t)))))
      with (mfun (d_add D3 (d_add D3 (d_identity D3) (d_scale D3 A (sin t / t))) (d_scale D3 (m33_mul A A) ((1 - cos t) / (t * t))))).
    rewrite !d_add_entry, !d_scale_entry, d_identity_entry by assumption.
    unfold delta. cbn [mpow]. cbn [add mul one zero R_Num]. change (dimn D3) with 3%nat. destruct (Nat.eqb i j); field; exact T.
  - intros i j Hi Hj. unfold t. rewrite v3_norm2_sq. apply (mpow_skew w i j Hi Hj).
Qed.

Lemma mexp_rodrigues (u : V3 R) t : unit3 u -> t <> 0 ->
  is_mexp 3 (mfun (skew_from_vec (v3_scale u t))) (mfun (rodrigues u t)).
Proof.
  intros U T.
  assert (N : v3_scale u t <> v3_zeros).
  { intros E. apply v3_norm2_zero in E. rewrite v3_norm2_scale, (unit3_norm u U), Rmult_1_r in E.
    apply Rabs_no_R0 in E; assumption. }
  pose proof (mexp_skew _ N) as H. cbv zeta in H. rewrite v3_norm2_scale, (unit3_norm u U), Rmult_1_r in H.
  replace (rodrigues u t) with (m33_add (m33_add m33_identity (m33_scale (skew_from_vec (v3_scale u t)) (sin (Rabs t) / Rabs t)))
    (m33_scale (m33_mul (skew_from_vec (v3_scale u t)) (skew_from_vec (v3_scale u t))) ((1 - cos (Rabs t)) / (Rabs t * Rabs t)))); [exact H| ].
  rewrite <- (rodrigues_skew u t U).
  assert (S : sin (Rabs t) / Rabs t = sin t / t).
  { unfold Rabs. destruct Rcase_abs; [rewrite sin_neg; field; lra|reflexivity]. }
  assert (C : (1 - cos (Rabs t)) / (Rabs t * Rabs t) = (1 - cos t) / (t * t)).
  { unfold Rabs. destruct Rcase_abs; [rewrite cos_neg; field; lra|reflexivity]. }
  rewrite S, C. generalize (sin t) (cos t). revert T. clear. intros T s c. destruct u as (x & y & z & []).
  rlazy. rpairs; field; exact T.
Qed.

(** every vector is a non-negative multiple of a unit vector *)
Lemma polar3 (w : V3 R) : exists u, unit3 u /\ w = v3_scale u (v3_norm2 w).
Proof. apply v3_direction. Qed.

Lemma c44_exponential : forall A : M33 R, skew3 A -> r_eps <= v3_norm2 (skew_to_vec A) ->
  exists E, matrix_exponential A = Ok E /\ is_mexp 3 (mfun A) (mfun E) /\ SO3 E.
Proof.
  intros A H L. rewrite (skew_form A H). destruct (polar3 (skew_to_vec A)) as (u & U & W).
  rewrite W. set (t := v3_norm2 (skew_to_vec A)) in *. pose proof (eps_pos K OK) as E0.
  exists (rodrigues u t). split; [apply matrix_exponential_value; assumption|split].
  - apply mexp_rodrigues; [exact U|lra].
  - apply rodrigues_SO3. exact U.
Qed.

(** below the tolerance the identity is returned: never off by more than 2 eps *)
Lemma rodrigues_near (u : V3 R) t i j : unit3 u -> 0 <= t -> (i < 3)%nat -> (j < 3)%nat ->
  Rabs (mfun (rodrigues u t) i j - mfun m33_identity i j) <= 2 * t.
Proof.
  intros U T Hi Hj.
  assert (S : Rabs (sin t) <= t).
  { destruct (Rle_lt_dec t PI) as [L|L].
    - rewrite Rabs_pos_eq by (apply sin_ge_0; lra). apply sin_le_x. exact T.
    - pose proof (SIN_bound t). pose proof PI2_1. apply Rabs_le. lra. }
  assert (C : Rabs (1 - cos t) <= t).
  { assert (H : 1 - cos t = 2 * (sin (t / 2) * sin (t / 2))).
    { destruct (half_angle t) as [E _]. pose proof (sin2_cos2' (t / 2)). lra. }
    pose proof (COS_bound t). rewrite Rabs_pos_eq by lra.
    destruct (Rle_lt_dec 2 t) as [L|L]; [lra| ].
    assert (S0 : 0 <= sin (t / 2)) by (apply sin_ge_0; pose proof PI2_1; lra).
    pose proof (sin_le_x (t / 2) ltac:(lra)). pose proof (SIN_bound (t / 2)).
    rewrite H. assert (sin (t / 2) * sin (t / 2) <= t / 2 * 1) by (apply Rmult_le_compat; lra). lra. }
  pose proof (rodrigues_skew u t U) as E. rewrite <- E. clear E.
  revert S C. generalize (sin t) (1 - cos t). intros s c S C.
  change (mfun (m33_add (m33_add m33_identity (m33_scale (skew_from_vec u) s)) (m33_scale (m33_mul (skew_from_vec u) (skew_from_vec u)) c)))
    with (mfun (d_add D3 (d_add D3 (d_identity D3) (d_scale D3 (skew_from_vec u) s)) (d_scale D3 (m33_mul (skew_from_vec u) (skew_from_vec u)) c))).
  change (mfun m33_identity i j) with (mfun (d_identity D3) i j : R).
  rewrite !d_add_entry, !d_scale_entry by assumption. cbn [add mul R_Num].
  change (dimn D3) with 3%nat. set (a := mfun (skew_from_vec u) i j). set (b := mfun (m33_mul (skew_from_vec u) (skew_from_vec u)) i j).
  assert (AB : Rabs a <= 1 /\ Rabs b <= 1).
  { unfold a, b. unfold unit3 in U. destruct u as (x & y & z & []). revert U. clear - Hi Hj. 
    intros U. lazy -[Rplus Rmult Ropp Rminus Rdiv Rinv IZR lt mfun skew_from_vec m33_mul Rabs] in U.
    assert (X : 0 <= x * x) by apply Rle_0_sqr. assert (Y : 0 <= y * y) by apply Rle_0_sqr.
    assert (Z : 0 <= z * z) by apply Rle_0_sqr.
    assert (XY : 0 <= (x - y) * (x - y)) by apply Rle_0_sqr. assert (XY' : 0 <= (x + y) * (x + y)) by apply Rle_0_sqr.
    assert (XZ : 0 <= (x - z) * (x - z)) by apply Rle_0_sqr. assert (XZ' : 0 <= (x + z) * (x + z)) by apply Rle_0_sqr.
    assert (YZ : 0 <= (y - z) * (y - z)) by apply Rle_0_sqr. assert (YZ' : 0 <= (y + z) * (y + z)) by apply Rle_0_sqr.
    assert (BX : -1 <= x <= 1) by nra. assert (BY : -1 <= y <= 1) by nra. assert (BZ : -1 <= z <= 1) by nra.
    all_lt i Hi; all_lt j Hj; lazy -[Rplus Rmult Ropp Rminus Rdiv Rinv IZR Rabs Rle];
      split; apply Rabs_le; split; lra. }
  destruct AB as [A1 B1].
  match goal with |- Rabs ?e <= _ => replace e with (a * s + b * c) by ring end.
  eapply Rle_trans; [apply Rabs_triang| ]. rewrite !Rabs_mult.
  pose proof (Rabs_pos a). pose proof (Rabs_pos b). pose proof (Rabs_pos s). pose proof (Rabs_pos c).
  assert (Rabs a * Rabs s <= 1 * t) by (apply Rmult_le_compat; lra).
  assert (Rabs b * Rabs c <= 1 * t) by (apply Rmult_le_compat; lra). lra.
Qed.

Lemma c44_exponential_tiny : forall A : M33 R, skew3 A -> v3_norm2 (skew_to_vec A) < r_eps ->
  matrix_exponential A = Ok m33_identity
  /\ exists E : M33 R, is_mexp 3 (mfun A) (mfun E)
     /\ forall i j, (i < 3)%nat -> (j < 3)%nat -> Rabs (mfun m33_identity i j - mfun E i j) <= 2 * r_eps.
Proof.
  intros A H L. split.
  - unfold matrix_exponential. replace (nearly_zero (v3_norm2 (skew_to_vec A))) with true; [reflexivity| ].
    symmetry. apply (nearly_zero_iff OK). rewrite Rabs_pos_eq by apply v3_norm2_nonneg. exact L.
  - rewrite (skew_form A H). destruct (polar3 (skew_to_vec A)) as (u & U & W). rewrite W.
    set (t := v3_norm2 (skew_to_vec A)) in *. pose proof (v3_norm2_nonneg (skew_to_vec A)) as P. fold t in P.
    exists (rodrigues u t). split.
    + destruct (Req_dec t 0) as [Z|Z]; [ |now apply mexp_rodrigues].
      rewrite Z. eapply is_mexp_ext; [ |apply mexp_nilpotent].
      * intros i j Hi Hj. unfold rodrigues. rewrite cos_0, sin_0. clear - Hi Hj. destruct u as (x & y & z & []).
        all_lt i Hi; all_lt j Hj; rlazy; ring.
      * intros i j Hi Hj. clear - Hi Hj. destruct u as (x & y & z & []). all_lt i Hi; all_lt j Hj; rlazy; ring.
    + intros i j Hi Hj. rewrite Rabs_minus_sym. eapply Rle_trans; [apply rodrigues_near; assumption|lra].
Qed.

(** axis-angle form and exponential coordinates agree *)
Lemma c44_axis_angle : forall (w : V3 R) theta, unit3 w -> r_eps <= Rabs theta ->
  matrix_exponential (skew_from_vec (v3_scale w theta)) = Ok (rotation_from_axis_angle w theta)
  /\ is_mexp 3 (mfun (skew_from_vec (v3_scale w theta))) (mfun (rotation_from_axis_angle w theta)).
Proof.
  intros w theta U L. destruct (c44_axis_angle_rodrigues w theta U) as [E _]. rewrite E.
  pose proof (eps_pos K OK) as E0. split.
  - destruct (Rle_lt_dec 0 theta) as [P|P].
    + apply matrix_exponential_value; [exact U| ]. rewrite Rabs_pos_eq in L by exact P. exact L.
    + rewrite Rabs_left in L by exact P.
      replace (v3_scale w theta) with (v3_scale (v3_scale w (-1)) (- theta)) by (rewrite v3_scale_scale; f_equal; ring).
      rewrite matrix_exponential_value; [ | |exact L].
      * f_equal. unfold rodrigues. rewrite cos_neg, sin_neg. clear. destruct w as (x & y & z & []). rlazy. rpairs; ring.
      * unfold unit3 in *. rewrite v3_dot_scale, U. ring.
  - apply mexp_rodrigues; [exact U| ]. intros Z. rewrite Z, Rabs_R0 in L. lra.
Qed.

(** the function never panics *)
Lemma c44_total : forall A : M33 R, matrix_exponential A <> Panic.
Proof.
  intros A. unfold matrix_exponential, axis_angle.
  destruct (nearly_zero_cases OK (v3_norm2 (skew_to_vec A))) as [[E _]|(E & L & N)]; rewrite E; [discriminate| ].
  rewrite v3_normalize_eq; [discriminate| ]. intros Z. apply v3_norm2_zero in Z. contradiction.
Qed.

(** ** C45: logarithm *)

(** every rotation is Rodrigues' matrix for some axis and angle in [0, PI] *)
Lemma SO3_rodrigues (A : M33 R) : SO3 A ->
  exists u t, unit3 u /\ 0 <= t <= PI /\ A = rodrigues u t.
Proof.
  intros H. destruct (c28_from_rotation A H) as [U E]. set (q := q_from_rotation A) in *.
  destruct (unit_acos q U) as (C & S & _). set (a := acos (q0 q)) in *.
  pose proof (acos_bound (q0 q)) as B. fold a in B.
  destruct (polar3 (Quat.q q)) as (u & Uu & V). rewrite <- S in V.
  assert (E' : A = rodrigues u (2 * a)).
  { rewrite <- E, <- half_angle_quat_rotation by exact Uu. replace (2 * a / 2) with a by field.
    rewrite <- V, C. reflexivity. }
  destruct (Rle_lt_dec (2 * a) PI) as [L|L].
  - exists u, (2 * a). split; [exact Uu|split; [lra|exact E']].
  - exists (v3_scale u (-1)), (2 * PI - 2 * a). split; [ |split; [lra| ]].
    + unfold unit3 in *. rewrite v3_dot_scale, Uu. ring.
    + rewrite E'. unfold rodrigues. replace (2 * PI - 2 * a) with (- (2 * a - 2 * PI)) by ring.
      rewrite cos_neg, sin_neg.
      assert (C1 : cos (2 * a - 2 * PI) = cos (2 * a)).
      { rewrite <- (cos_period (2 * a - 2 * PI) 1). f_equal. cbn [INR]. ring. }
      assert (S1 : sin (2 * a - 2 * PI) = sin (2 * a)).
      { rewrite <- (sin_period (2 * a - 2 * PI) 1). f_equal. cbn [INR]. ring. }
      rewrite C1, S1.
      generalize (cos (2 * a)) (sin (2 * a)). clear. intros c s. destruct u as (x & y & z & []). rlazy. rpairs; ring.
Qed.

Lemma rodrigues_trace (u : V3 R) t : unit3 u -> m33_trace (rodrigues u t) = 1 + 2 * cos t.
Proof.
  unfold unit3, rodrigues. cbv zeta. generalize (cos t) (sin t). intros c s. destruct u as (x & y & z & []).
  rlazy. intros U. apply (f_equal (Rmult (1 - c))) in U as U2. lra.
Qed.

Definition rot_angle (A : M33 R) : R := acos ((mfun A 0 0 + mfun A 1 1 + mfun A 2 2 - 1) / 2).

Lemma rodrigues_angle (u : V3 R) t : unit3 u -> 0 <= t <= PI -> rot_angle (rodrigues u t) = t
  /\ (m33_trace (rodrigues u t) - 1) / (1 + 1) = cos t.
Proof.
  intros U T. pose proof (rodrigues_trace u t U) as E.
  assert (E2 : mfun (rodrigues u t) 0 0 + mfun (rodrigues u t) 1 1 + mfun (rodrigues u t) 2 2 = 1 + 2 * cos t).
  { rewrite <- E. generalize (rodrigues u t). clear. intros M. rdes. rlazy. ring. }
  unfold rot_angle. rewrite E, E2. replace ((1 + 2 * cos t - 1) / 2) with (cos t) by field.
  split; [apply acos_cos; lra|field].
Qed.

Lemma cos_lt_1 t : 0 < t <= PI -> cos t < 1.
Proof. intros T. rewrite <- cos_0. apply cos_decreasing_1; lra. Qed.
Lemma cos_gt_m1 t : 0 <= t < PI -> -1 < cos t.
Proof. intros T. rewrite <- cos_PI. apply cos_decreasing_1; lra. Qed.

Lemma log_regular (u : V3 R) t : unit3 u -> 0 < t < PI ->
  matrix_log (rodrigues u t) = skew_from_vec (v3_scale u t).
Proof.
  intros U T. destruct (rodrigues_angle u t U ltac:(lra)) as [_ A].
  pose proof (cos_lt_1 t ltac:(lra)) as C1. pose proof (cos_gt_m1 t ltac:(lra)) as C2.
  unfold matrix_log. cbn [one add sub div R_Num leb R_POrd neg R_Signed facos fsin R_Float]. rewrite A.
  replace (Rleb 1 (cos t)) with false by (symmetry; apply Rleb_false; lra).
  replace (Rleb (cos t) (-(1))) with false by (symmetry; apply Rleb_false; lra).
  rewrite acos_cos by lra.
  assert (S : sin t <> 0) by (pose proof (sin_gt_0 t ltac:(lra) ltac:(lra)); lra).
  unfold rodrigues. revert S. generalize (cos t) (sin t). clear. intros c s S. destruct u as (x & y & z & []).
  rlazy. rpairs; field; exact S.
Qed.

Lemma rodrigues_0 (u : V3 R) : rodrigues u 0 = m33_identity.
Proof. unfold rodrigues. rewrite cos_0, sin_0. destruct u as (x & y & z & []). rlazy. rpairs; ring. Qed.

Lemma log_identity : matrix_log (m33_identity : M33 R) = m33_zeros.
Proof.
  unfold matrix_log. cbn [one add sub div R_Num leb R_POrd].
  replace ((m33_trace m33_identity - 1) / (1 + 1)) with 1 by (rlazy; field).
  replace (Rleb 1 1) with true by (symmetry; apply Rleb_true; lra). reflexivity.
Qed.

(** half turns: the axis is recovered, up to sign, in the first two branches *)
Lemma log_halfturn (u : V3 R) : unit3 u ->
  r_eps <= 1 + mfun (rodrigues u PI) 2 2 \/ r_eps <= 1 + mfun (rodrigues u PI) 1 1 ->
  exists e, e * e = 1 /\ matrix_log (rodrigues u PI) = skew_from_vec (v3_scale (v3_scale u e) PI).
Proof.
  intros U HB. destruct (rodrigues_angle u PI U) as [_ A]; [pose proof PI_RGT_0; lra| ].
  pose proof (eps_pos K OK) as E0.
  assert (F : forall i, (i < 3)%nat -> mfun (rodrigues u PI) i i = 2 * (vfun u i * vfun u i) - 1).
  { intros i Hi. unfold rodrigues. rewrite cos_PI, sin_PI. clear - Hi. destruct u as (x & y & z & []).
    all_lt i Hi; rlazy; ring. }
  rewrite !F in HB by lia.
  assert (EN : forall i, (i < 3)%nat -> nearly_zero (1 + mfun (rodrigues u PI) i i) = false <-> r_eps <= 2 * (vfun u i * vfun u i)).
  { intros i Hi. rewrite F by exact Hi. rewrite (nearly_zero_false OK).
    replace (1 + (2 * (vfun u i * vfun u i) - 1)) with (2 * (vfun u i * vfun u i)) by ring.
    assert (0 <= vfun u i * vfun u i) by apply Rle_0_sqr. rewrite Rabs_pos_eq by lra. reflexivity. }
  unfold matrix_log. cbn [one add sub div mul R_Num leb R_POrd neg R_Signed fsqrt PI_ R_Float]. rewrite A, cos_PI.
  replace (Rleb 1 (-1)) with false by (symmetry; apply Rleb_false; lra).
  replace (Rleb (-1) (-(1))) with true by (symmetry; apply Rleb_true; lra).
  change ((rodrigues u PI).[2].[2]) with (mfun (rodrigues u PI) 2 2).
  change ((rodrigues u PI).[1].[1]) with (mfun (rodrigues u PI) 1 1).
  pose proof (EN 2%nat ltac:(lia)) as E2. pose proof (EN 1%nat ltac:(lia)) as E1.
  assert (SG : forall a, a <> 0 -> exists e, e * e = 1 /\ 1 / sqrt ((1 + 1) * (1 + (2 * (a * a) - 1))) = e / (2 * a)).
  { intros a Na. replace ((1 + 1) * (1 + (2 * (a * a) - 1))) with ((2 * a) * (2 * a)) by ring.
    destruct (Rle_lt_dec 0 a) as [P|P].
    - exists 1. split; [ring|rewrite sqrt_square by lra; reflexivity].
    - exists (-1). split; [ring| ]. replace (2 * a * (2 * a)) with (- (2 * a) * - (2 * a)) by ring.
      rewrite sqrt_square by lra. field. exact Na. }
  destruct (nearly_zero (1 + mfun (rodrigues u PI) 2 2)) eqn:Z2; cbn [negb].
  - destruct (nearly_zero (1 + mfun (rodrigues u PI) 1 1)) eqn:Z1; cbn [negb].
    + exfalso. destruct HB as [HB|HB].
      * assert (X : true = false) by (apply E2; lra). discriminate X.
      * assert (X : true = false) by (apply E1; lra). discriminate X.
    + assert (L := proj1 E1 eq_refl).
      destruct (SG (vfun u 1)) as (e & Ee & Es); [intros Z; rewrite Z in L; lra| ].
      exists e. split; [exact Ee| ]. rewrite F by lia. rewrite Es.
      assert (Nz : vfun u 1 <> 0) by (intros Z; rewrite Z in L; lra).
      unfold rodrigues. rewrite cos_PI, sin_PI. revert Nz. generalize PI. clear. intros P Nz.
      destruct u as (x & y & z & []). revert Nz. rlazy. intros Nz. rpairs; field; exact Nz.
  - assert (L := proj1 E2 eq_refl).
    destruct (SG (vfun u 2)) as (e & Ee & Es); [intros Z; rewrite Z in L; lra| ].
    exists e. split; [exact Ee| ]. rewrite F by lia. rewrite Es.
    assert (Nz : vfun u 2 <> 0) by (intros Z; rewrite Z in L; lra).
    unfold rodrigues. rewrite cos_PI, sin_PI. revert Nz. generalize PI. clear. intros P Nz.
    destruct u as (x & y & z & []). revert Nz. rlazy. intros Nz. rpairs; field; exact Nz.
Qed.

Lemma rodrigues_pi_sign (u : V3 R) e : e * e = 1 -> rodrigues (v3_scale u e) PI = rodrigues u PI.
Proof.
  intros E. unfold rodrigues. rewrite cos_PI, sin_PI. destruct u as (x & y & z & []). rlazy.
  rpairs; nsatz.
Qed.

Lemma c45_log_skew : forall A : M33 R, skew3 (matrix_log A).
Proof.
  intros A. unfold matrix_log.
  assert (SV : forall v : V3 R, skew3 (skew_from_vec v)) by (intros v; apply (c43_skew_antisymmetric R_ring)).
  repeat match goal with |- context [if ?b then _ else _] => destruct b end; auto.
  - intros i j Hi Hj. all_lt i Hi; all_lt j Hj; rlazy; ring.
  - match goal with |- skew3 (m33_scale _ ?k) => generalize k end. intros k i j Hi Hj. clear - Hi Hj. rdes.
    all_lt i Hi; all_lt j Hj; rlazy; ring.
Qed.

Lemma c45_exp_log_partial : forall A : M33 R, SO3 A ->
  A = m33_identity \/ r_eps <= rot_angle A ->
  (rot_angle A = PI -> r_eps <= 1 + mfun A 2 2 \/ r_eps <= 1 + mfun A 1 1) ->
  matrix_exponential (matrix_log A) = Ok A
  /\ v3_norm2 (skew_to_vec (matrix_log A)) = rot_angle A.
Proof.
  intros A H HI HP. pose proof (eps_pos K OK) as E0. pose proof PI_RGT_0 as PP.
  assert (ID : A = m33_identity -> matrix_exponential (matrix_log A) = Ok A
     /\ v3_norm2 (skew_to_vec (matrix_log A)) = rot_angle A).
  { intros ->. rewrite log_identity.
    assert (Z : v3_norm2 (skew_to_vec (m33_zeros : M33 R)) = 0) by (apply v3_norm2_zero; reflexivity).
    split.
    - unfold matrix_exponential. rewrite Z. replace (nearly_zero 0) with true; [reflexivity| ].
      symmetry. apply (nearly_zero_iff OK). rewrite Rabs_R0. exact E0.
    - rewrite Z. unfold rot_angle. replace ((_ - 1) / 2) with 1 by (rlazy; field). symmetry. apply acos_1. }
  destruct HI as [HI|HI]; [now apply ID| ].
  destruct (SO3_rodrigues A H) as (u & t & U & T & ->).
  destruct (rodrigues_angle u t U T) as [RA _]. rewrite RA in *.
  assert (NV : forall v : V3 R, unit3 v -> v3_norm2 (skew_to_vec (skew_from_vec (v3_scale v t))) = t).
  { intros v Uv. rewrite c43_skew_round_trip, v3_norm2_scale, (unit3_norm v Uv), Rabs_pos_eq by lra. ring. }
  destruct (Rle_lt_or_eq_dec t PI (proj2 T)) as [L|L].
  - rewrite log_regular by (try assumption; lra). split; [now apply matrix_exponential_value|now apply NV].
  - subst t. destruct (log_halfturn u U (HP eq_refl)) as (e & Ee & ->).
    assert (Ue : unit3 (v3_scale u e)) by (unfold unit3 in *; rewrite v3_dot_scale, U; lra).
    split; [ |now apply NV]. rewrite matrix_exponential_value by assumption. now rewrite rodrigues_pi_sign.
Qed.

(** rotations by less than the tolerance come back as the identity *)
Lemma c45_exp_log_tiny : forall A : M33 R, SO3 A -> rot_angle A < r_eps ->
  matrix_exponential (matrix_log A) = Ok m33_identity
  /\ forall i j, (i < 3)%nat -> (j < 3)%nat -> Rabs (mfun A i j - mfun m33_identity i j) <= 2 * r_eps.
Proof.
  intros A H L. pose proof (eps_pos K OK) as E0. pose proof (eps_small K OK) as E1. pose proof PI2_1 as P1.
  destruct (SO3_rodrigues A H) as (u & t & U & T & ->).
  destruct (rodrigues_angle u t U T) as [RA _]. rewrite RA in L.
  split.
  - unfold matrix_exponential. replace (nearly_zero _) with true; [reflexivity| ].
    symmetry. apply (nearly_zero_iff OK). rewrite Rabs_pos_eq by apply v3_norm2_nonneg.
    destruct (Rle_lt_or_eq_dec 0 t (proj1 T)) as [P|P].
    + rewrite log_regular, c43_skew_round_trip, v3_norm2_scale, (unit3_norm u U), Rabs_pos_eq by (try assumption; lra). lra.
    + subst t. rewrite rodrigues_0, log_identity.
      assert (Z : v3_norm2 (skew_to_vec (m33_zeros : M33 R)) = 0) by (apply v3_norm2_zero; reflexivity). lra.
  - intros i j Hi Hj. eapply Rle_trans; [apply rodrigues_near; (assumption || lra)|lra].
Qed.

(** the logarithm undoes the exponential below a half turn *)
Lemma c45_log_exp : forall (A E : M33 R), skew3 A -> r_eps <= v3_norm2 (skew_to_vec A) < PI ->
  matrix_exponential A = Ok E -> matrix_log E = A.
Proof.
  intros A E H L X. pose proof (eps_pos K OK) as E0. rewrite (skew_form A H) in *.
  rewrite c43_skew_round_trip in L. destruct (polar3 (skew_to_vec A)) as (u & U & W).
  rewrite W in X |- *. rewrite matrix_exponential_value in X by (try assumption; lra). injection X as <-.
  apply log_regular; [exact U|lra].
Qed.

(** half turns about (nearly) the x axis take the third branch, which adds one
    to the wrong entry *)
Lemma c45_exp_log_refuted : exists A : M33 R, SO3 A /\ r_eps <= rot_angle A
  /\ matrix_exponential (matrix_log A) <> Ok A.
Proof.
  exists (rodrigues ex PI). pose proof (eps_pos K OK) as E0. pose proof (eps_small K OK) as E1.
  pose proof PI2_1 as P1.
  assert (U : unit3 ex) by (unfold unit3; rlazy; ring).
  destruct (rodrigues_angle ex PI U ltac:(lra)) as [RA A].
  split; [apply rodrigues_SO3, U|split; [lra| ]].
  assert (X : rodrigues ex PI = halfturn_x).
  { unfold rodrigues, halfturn_x. rewrite cos_PI, sin_PI. rlazy. rpairs; ring. }
  rewrite X in *. clear X RA.
  assert (LG : matrix_log halfturn_x = skew_from_vec (v3_scale [| 1; /2; 0 |] PI)).
  { unfold matrix_log. cbn [one add sub div mul R_Num leb R_POrd neg R_Signed fsqrt PI_ R_Float]. rewrite A, cos_PI.
    replace (Rleb 1 (-1)) with false by (symmetry; apply Rleb_false; lra).
    replace (Rleb (-1) (-(1))) with true by (symmetry; apply Rleb_true; lra).
    assert (Z : nearly_zero (1 + -1) = true) by (apply (nearly_zero_iff OK); replace (1 + -1) with 0 by ring; rewrite Rabs_R0; exact E0).
    change (halfturn_x.[2].[2]) with (-1). change (halfturn_x.[1].[1]) with (-1). rewrite Z. cbn [negb].
    change (halfturn_x.[0].[0]) with 1. change (halfturn_x.[1].[0]) with 0. change (halfturn_x.[2].[0]) with 0.
    replace ((1 + 1) * (1 + 1)) with (2 * 2) by ring. rewrite sqrt_square by lra. f_equal. f_equal.
    rlazy. rpairs; field. }
  rewrite LG.
  (* whatever the exponential is, its axis (1, 1/2, 0) is not fixed by the half turn about x *)
  set (w := [| 1; /2; 0 |] : V3 R) in *. set (n := v3_norm2 w).
  assert (Pn : 0 < n).
  { apply norm_pos. intros Z. apply (f_equal (fun v => vfun v 0)) in Z. revert Z. unfold w. rlazy. lra. }
  destruct (polar3 w) as (u & Uu & W). fold n in W.
  assert (NN : n * n = 5 / 4) by (unfold n; rewrite v3_norm2_sq; unfold w; rlazy; field).
  intros HE. rewrite W, v3_scale_scale in HE.
  rewrite matrix_exponential_value in HE; [ |exact Uu| ].
  2:{ assert (1 <= n) by nra. assert (1 * 2 <= n * PI) by (apply Rmult_le_compat; lra). lra. }
  apply (f_equal (fun o => match o with Ok x => x | Panic => halfturn_x end)) in HE.
  assert (FX : m33_mul_v (rodrigues u (n * PI)) w = w).
  { rewrite W. rewrite <- (rodrigues_skew u _ Uu). generalize (sin (n * PI)) (1 - cos (n * PI)). clear.
    intros s c. destruct u as (x & y & z & []). rlazy. rpairs; ring. }
  rewrite HE in FX. apply (f_equal (fun v => vfun v 1)) in FX. revert FX. unfold w. rlazy. lra.
Qed.

(** ** C46: SE(3) *)

Lemma mpow_twist (w v : V3 R) i j : (i < 4)%nat -> (j < 4)%nat ->
  let A := skew_from_vec w in
  let B := mfun (twist_to_se3 (tw w v)) in
  mpow 4 B 1 i j = mfun (se3_from_parts A v) i j
  /\ mpow 4 B 2 i j = mfun (se3_from_parts (m33_mul A A) (m33_mul_v A v)) i j
  /\ mpow 4 B 3 i j = mfun (se3_from_parts (m33_scale A (- v3_dot w w)) (m33_mul_v (m33_mul A A) v)) i j
  /\ mpow 4 B 4 i j = - (v3_dot w w) * mpow 4 B 2 i j.
Proof.
  intros Hi Hj A B. unfold A, B. clear A B. destruct w as (x & y & z & []), v as (a & b & c & []).
  all_lt i Hi; all_lt j Hj; rlazy; repeat split; ring.
Qed.

(** left Jacobian of SO(3) *)
Definition left_jacobian (u : V3 R) (t : R) : M33 R :=
  let S := skew_from_vec u in
  m33_add (m33_add m33_identity (m33_scale S ((1 - cos t) / t))) (m33_scale (m33_mul S S) ((t - sin t) / t)).

Lemma mexp_twist (u v : V3 R) t : unit3 u -> t <> 0 ->
  is_mexp 4 (mfun (twist_to_se3 (tw (v3_scale u t) v)))
    (mfun (homogeneous_from_rotation (rodrigues u t) (m33_mul_v (left_jacobian u t) v))).
Proof.
  intros U T. eapply is_mexp_ext; [ |apply (mexp_closed 4 _ t T)].
  - intros i j Hi Hj. destruct (mpow_twist (v3_scale u t) v i j Hi Hj) as (P1 & P2 & P3 & _).
    rewrite P1, P2, P3, v3_dot_scale, U, <- (rodrigues_skew u t U). clear P1 P2 P3 U.
    unfold left_jacobian. cbv zeta. generalize (sin t) (cos t). intros s c.
    destruct u as (x & y & z & []), v as (v1 & v2 & v3 & []).
    all_lt i Hi; all_lt j Hj; rlazy; field; exact T.
  - intros i j Hi Hj. destruct (mpow_twist (v3_scale u t) v i j Hi Hj) as (_ & _ & _ & P4).
    rewrite P4. f_equal. rewrite v3_dot_scale, U. ring.
Qed.

Lemma exponential6_value (u v : V3 R) t : unit3 u -> r_eps <= t ->
  matrix_exponential6 (twist_to_se3 (tw (v3_scale u t) v))
  = Ok (homogeneous_from_rotation (rodrigues u t) (m33_mul_v (left_jacobian u t) v)).
Proof.
  intros U L. pose proof (eps_pos K OK) as E0. pose proof (matrix_exponential_value u t U L) as ME.
  unfold matrix_exponential6. 
  replace (se3_get_parts (twist_to_se3 (tw (v3_scale u t) v))) with (skew_from_vec (v3_scale u t), v) by (clear; rdes; rlazy; reflexivity).
  cbv beta iota zeta. rewrite ME. unfold axis_angle. rewrite c43_skew_round_trip.
  assert (N : v3_norm2 (v3_scale u t) = t).
  { rewrite v3_norm2_scale, (unit3_norm u U), Rabs_pos_eq by lra. ring. }
  rewrite N. replace (nearly_zero t) with false.
  2:{ symmetry. apply (nearly_zero_false OK). rewrite Rabs_pos_eq; lra. }
  rewrite v3_normalize_eq.
  2:{ intros E. apply v3_norm2_zero in E. lra. }
  cbn [unwrap bind snd fsin fcos sin_cos R_Float one zero sub R_Num]. f_equal.
  assert (T : t <> 0) by lra.
  assert (J : v3_div (m33_mul_v (m33_add (m33_add (m33_scale m33_identity t) (m33_scale (m33_div (skew_from_vec (v3_scale u t)) t) (1 - cos t)))
      (m33_scale (m33_mul (m33_div (skew_from_vec (v3_scale u t)) t) (m33_div (skew_from_vec (v3_scale u t)) t)) (t - sin t))) v) t
    = m33_mul_v (left_jacobian u t) v).
  { unfold left_jacobian. generalize (sin t) (cos t). clear - T. intros s c.
    destruct u as (x & y & z & []), v as (v1 & v2 & v3 & []). rlazy. rpairs; field; exact T. }
  rewrite J. reflexivity.
Qed.

Lemma se3_form (B : M44 R) : se3 B -> B = twist_to_se3 (tw (tw_w (se3_to_twist B)) (tw_v (se3_to_twist B))).
Proof.
  intros H. rewrite <- (c43_se3_round_trip B H) at 1. f_equal.
Qed.

Lemma c46_exponential_partial : forall B : M44 R, se3 B -> r_eps <= v3_norm2 (tw_w (se3_to_twist B)) ->
  exists E, matrix_exponential6 B = Ok E /\ is_mexp 4 (mfun B) (mfun E) /\ SE3 E.
Proof.
  intros B H L. rewrite (se3_form B H) in *. set (v := tw_v (se3_to_twist B)). clearbody v.
  replace (tw_w (se3_to_twist (twist_to_se3 (tw (tw_w (se3_to_twist B)) (tw_v (se3_to_twist B)))))) with (tw_w (se3_to_twist B)) in L
    by (clear; rdes; rlazy; reflexivity).
  set (w := tw_w (se3_to_twist B)) in *. clearbody w. destruct (polar3 w) as (u & U & W).
  set (t := v3_norm2 w) in *. clearbody t. subst w. pose proof (eps_pos K OK) as E0.
  eexists. split; [apply exponential6_value; assumption|split].
  - apply mexp_twist; [exact U|lra].
  - apply c42_homogeneous_SE3, rodrigues_SO3, U.
Qed.

(** pure translations: a stray one at (0, 2); the result is no rigid motion *)
Lemma c46_translation_refuted : forall v : V3 R,
  exists E, matrix_exponential6 (twist_to_se3 (tw v3_zeros v)) = Ok E /\ ~ SE3 E
   /\ is_mexp 4 (mfun (twist_to_se3 (tw v3_zeros v))) (mfun (translation_3d (vfun v 0) (vfun v 1) (vfun v 2)))
   /\ mfun E 0 2 = 1.
Proof.
  intros v. pose proof (eps_pos K OK) as E0. eexists. split; [ |split; [ |split]].
  - unfold matrix_exponential6.
    replace (se3_get_parts (twist_to_se3 (tw v3_zeros v))) with (skew_from_vec (v3_zeros : V3 R), v) by (clear; rdes; rlazy; rpairs; ring).
    cbv beta iota zeta. rewrite c43_skew_round_trip.
    assert (Z : v3_norm2 (v3_zeros : V3 R) = 0) by (apply v3_norm2_zero; reflexivity). rewrite Z.
    replace (nearly_zero 0) with true; [reflexivity| ]. symmetry. apply (nearly_zero_iff OK). rewrite Rabs_R0. exact E0.
  - intros [(O & _) _]. apply (f_equal (fun M => mfun M 0 2)) in O. revert O. clear. rdes. rlazy. lra.
  - eapply is_mexp_ext; [ |apply mexp_nilpotent].
    + intros i j Hi Hj. clear - Hi Hj. destruct v as (x & y & z & []). all_lt i Hi; all_lt j Hj; rlazy; ring.
    + intros i j Hi Hj. clear - Hi Hj. destruct v as (x & y & z & []). all_lt i Hi; all_lt j Hj; rlazy; ring.
  - reflexivity.
Qed.

(** the logarithm; over R a quotient by zero is zero, so the cotangent computed
    at a half turn is 0 (with f64 it is about 6e-17, with an exact pole it would
    be one over infinity) *)
Lemma jacobian_algebra (u p : V3 R) al be h de : unit3 u ->
  al - h - al * de + be * h = 0 -> be + de - al * h - be * de = 0 ->
  let S := skew_from_vec u in
  m33_mul_v (m33_add (m33_add m33_identity (m33_scale S al)) (m33_scale (m33_mul S S) be))
   (m33_mul_v (m33_add (m33_sub m33_identity (m33_scale S h)) (m33_scale (m33_mul S S) de)) p) = p.
Proof.
  intros U E1 E2 S.
  transitivity (v3_add p (v3_add (v3_scale (m33_mul_v S p) ((al - h - al * de + be * h) + (al * de - be * h) * (1 - v3_dot u u)))
    (v3_scale (m33_mul_v S (m33_mul_v S p)) ((be + de - al * h - be * de) + be * de * (1 - v3_dot u u))))).
  - unfold S. clear. destruct u as (x & y & z & []), p as (a & b & c & []). rlazy. rpairs; ring.
  - rewrite E1, E2, U. clear. generalize (m33_mul_v S p) (m33_mul_v S (m33_mul_v S p)). intros a b.
    rdes. rlazy. rpairs; ring.
Qed.

Lemma left_jacobian_inverse (u p : V3 R) t : unit3 u -> 0 < t <= PI ->
  let S := skew_from_vec (v3_scale u t) in
  m33_mul_v (left_jacobian u t)
   (m33_mul_v (m33_add (m33_sub m33_identity (m33_div S (1 + 1)))
       (m33_div (m33_scale (m33_mul S S) (1 / t - 1 / tan (t / (1 + 1)) / (1 + 1))) t)) p) = p.
Proof.
  intros U T S. pose proof PI_RGT_0 as PP. replace (t / (1 + 1)) with (t / 2) by (unfold Rdiv; f_equal; f_equal; ring).
  assert (Sp : 0 < sin (t / 2)) by (apply sin_gt_0; lra).
  assert (CT : 1 / tan (t / 2) = cos (t / 2) / sin (t / 2)).
  { unfold tan. destruct (Req_dec (cos (t / 2)) 0) as [Z|Z]; [rewrite Z|field; split; lra].
    unfold Rdiv. rewrite Rinv_0, !Rmult_0_r, Rinv_0. ring. }
  destruct (half_angle t) as [C1 S1]. pose proof (sin2_cos2' (t / 2)) as SC.
  assert (Ns : sin (t / 2) <> 0) by lra. assert (T0 : t <> 0) by lra.
  rewrite CT. unfold left_jacobian. rewrite C1, S1. clear C1 S1 CT Sp.
  generalize dependent (sin (t / 2)). generalize (cos (t / 2)). intros c s SC Ns.
  etransitivity; [ |apply (jacobian_algebra u p ((1 - (c * c - s * s)) / t) ((t - 2 * s * c) / t) (t / 2) (1 - t * (c / s) / 2) U)].
  - f_equal. f_equal. unfold S. clear - T0 Ns. destruct u as (x & y & z & []). rlazy. rpairs; field; auto.
  - replace (1 - (c * c - s * s)) with (2 * s * s) by lra. field. auto.
  - apply (Rmult_eq_reg_r (t * s)); [ |apply Rmult_integral_contrapositive; split; assumption].
    replace (1 - (c * c - s * s)) with (2 * s * s) by lra.
    transitivity (t * s * (1 - (c * c + s * s))); [field; auto| ]. replace (c * c + s * s) with 1 by lra. ring.
Qed.

Lemma m33_is_zero_iff (A : M33 R) : m33_is_zero A = true <-> A = m33_zeros.
Proof.
  assert (E : forall x y : R, eqb x y = true <-> x = y) by (intros x y; apply Reqb_true).
  assert (G : forall T n (e : T -> T -> bool), (forall x y, e x y = true <-> x = y) ->
     forall v w : arr T n, aeqb e v w = true <-> v = w).
  { intros T n e He. induction n as [ |n IH]; intros v w; cbn.
    - destruct v, w. tauto.
    - destruct v as [a v], w as [b w]. cbn. rewrite andb_true_iff, He, IH. split; [intros [-> ->]; reflexivity|intros X; injection X; auto]. }
  unfold m33_is_zero. apply G. intros x y. apply G. exact E.
Qed.

Lemma log6_value (u p : V3 R) t w : unit3 u -> unit3 w -> 0 < t <= PI ->
  rodrigues w t = rodrigues u t -> matrix_log (rodrigues u t) = skew_from_vec (v3_scale w t) ->
  exists v, matrix_log6 (homogeneous_from_rotation (rodrigues u t) p) = twist_to_se3 (tw (v3_scale w t) v)
   /\ m33_mul_v (left_jacobian w t) v = p.
Proof.
  intros U W T RW LG. destruct (rodrigues_angle u t U ltac:(lra)) as [_ A].
  unfold matrix_log6.
  replace (get_parts_raw (homogeneous_from_rotation (rodrigues u t) p)) with (rodrigues u t, p).
  2:{ generalize (rodrigues u t). clear. intros M. rdes. reflexivity. }
  cbv beta iota zeta. rewrite LG.
  destruct (m33_is_zero (skew_from_vec (v3_scale w t))) eqn:Z.
  - exfalso. apply m33_is_zero_iff in Z.
    assert (N : v3_norm2 (v3_scale w t) = 0).
    { rewrite <- (c43_skew_round_trip (v3_scale w t)), Z. apply v3_norm2_zero. reflexivity. }
    rewrite v3_norm2_scale, (unit3_norm w W), Rabs_pos_eq in N by lra. lra.
  - cbn [one add sub div mul R_Num facos ftan R_Float]. rewrite A, acos_cos by lra.
    eexists. split; [ |apply (left_jacobian_inverse w p t W T)].
    match goal with |- _ = twist_to_se3 (tw _ ?v) => generalize v end. clear. intros v. 
    generalize (v3_scale w t). intros x. rdes. rlazy. rpairs; ring.
Qed.

Lemma log6_translation (p : V3 R) :
  matrix_log6 (homogeneous_from_rotation (m33_identity : M33 R) p) = twist_to_se3 (tw v3_zeros p).
Proof.
  unfold matrix_log6.
  replace (get_parts_raw (homogeneous_from_rotation (m33_identity : M33 R) p)) with ((m33_identity : M33 R), p).
  2:{ clear. rdes. reflexivity. }
  cbv beta iota zeta. rewrite log_identity.
  replace (m33_is_zero (m33_zeros : M33 R)) with true. 
  2:{ symmetry. apply m33_is_zero_iff. reflexivity. }
  clear. rdes. rlazy. rpairs; ring.
Qed.

Lemma mexp_translation (p : V3 R) : is_mexp 4 (mfun (twist_to_se3 (tw v3_zeros p)))
  (mfun (homogeneous_from_rotation (m33_identity : M33 R) p)).
Proof.
  eapply is_mexp_ext; [ |apply mexp_nilpotent].
  - intros i j Hi Hj. destruct p as (x & y & z & []). all_lt i Hi; all_lt j Hj; rlazy; ring.
  - intros i j Hi Hj. destruct p as (x & y & z & []). all_lt i Hi; all_lt j Hj; rlazy; ring.
Qed.

(** the three cases of a rotation, for the logarithm *)
Lemma log_cases (A : M33 R) : SO3 A ->
  (rot_angle A = PI -> r_eps <= 1 + mfun A 2 2 \/ r_eps <= 1 + mfun A 1 1) ->
  A = m33_identity
  \/ exists u w t, unit3 u /\ unit3 w /\ 0 < t <= PI /\ A = rodrigues u t /\ rodrigues w t = rodrigues u t
       /\ rot_angle A = t /\ matrix_log (rodrigues u t) = skew_from_vec (v3_scale w t).
Proof.
  intros H HP. destruct (SO3_rodrigues A H) as (u & t & U & T & ->).
  destruct (rodrigues_angle u t U T) as [RA _]. rewrite RA in *.
  destruct (Rle_lt_or_eq_dec 0 t (proj1 T)) as [P|P].
  2:{ subst t. left. apply rodrigues_0. }
  right. destruct (Rle_lt_or_eq_dec t PI (proj2 T)) as [L|L].
  - exists u, u, t. repeat split; try assumption; try lra. apply log_regular; [assumption|lra].
  - subst t. destruct (log_halfturn u U (HP eq_refl)) as (e & Ee & LG).
    exists u, (v3_scale u e), PI. repeat split; try assumption; try lra.
    + unfold unit3 in *. rewrite v3_dot_scale, U. lra.
    + now apply rodrigues_pi_sign.
Qed.

(** no tolerance: [matrix_log A] is a logarithm of [A] in the sense of the series *)
Lemma c45_log_series : forall A : M33 R, SO3 A ->
  (rot_angle A = PI -> r_eps <= 1 + mfun A 2 2 \/ r_eps <= 1 + mfun A 1 1) ->
  is_mexp 3 (mfun (matrix_log A)) (mfun A).
Proof.
  intros A H HP. destruct (log_cases A H HP) as [->|(u & w & t & U & W & T & -> & RW & _ & LG)].
  - rewrite log_identity. eapply is_mexp_ext; [ |apply mexp_nilpotent].
    + intros i j Hi Hj. all_lt i Hi; all_lt j Hj; rlazy; ring.
    + intros i j Hi Hj. all_lt i Hi; all_lt j Hj; rlazy; ring.
  - rewrite LG, <- RW. apply mexp_rodrigues; [exact W|lra].
Qed.

Lemma c46_log_series : forall A : M44 R, SE3 A ->
  (rot_angle (rot_of A) = PI -> r_eps <= 1 + mfun A 2 2 \/ r_eps <= 1 + mfun A 1 1) ->
  se3 (matrix_log6 A) /\ is_mexp 4 (mfun (matrix_log6 A)) (mfun A).
Proof.
  intros A H HP. pose proof (SE3_form A H) as F. destruct H as [H _].
  destruct (log_cases (rot_of A) H HP) as [I|(u & w & t & U & W & T & I & RW & _ & LG)];
    rewrite I in F; set (p := trans_of A) in *; clearbody p; subst A.
  - rewrite log6_translation. split; [apply (c43_twist_se3 R_ring)|apply mexp_translation].
  - destruct (log6_value u p t w U W T RW LG) as (v & -> & J).
    split; [apply (c43_twist_se3 R_ring)| ]. rewrite <- J, <- RW. apply mexp_twist; [exact W|lra].
Qed.

Lemma c46_exp_log_partial : forall A : M44 R, SE3 A -> r_eps <= rot_angle (rot_of A) ->
  (rot_angle (rot_of A) = PI -> r_eps <= 1 + mfun A 2 2 \/ r_eps <= 1 + mfun A 1 1) ->
  matrix_exponential6 (matrix_log6 A) = Ok A.
Proof.
  intros A H L HP. pose proof (SE3_form A H) as F. destruct H as [H _]. pose proof (eps_pos K OK) as E0.
  destruct (log_cases (rot_of A) H HP) as [I|(u & w & t & U & W & T & I & RW & RA & LG)].
  - exfalso. rewrite I in L. revert L. unfold rot_angle. replace ((_ - 1) / 2) with 1 by (rlazy; field).
    rewrite acos_1. lra.
  - rewrite RA in L. rewrite I in F; set (p := trans_of A) in *; clearbody p. rewrite F.
    destruct (log6_value u p t w U W T RW LG) as (v & -> & J).
    rewrite exponential6_value by assumption. now rewrite J, RW.
Qed.

(** polynomials in one matrix commute *)
Lemma jacobian_commute (u x : V3 R) t h k :
  let S := skew_from_vec (v3_scale u t) in
  let G := m33_add (m33_sub m33_identity (m33_div S (1 + 1))) (m33_div (m33_scale (m33_mul S S) h) k) in
  m33_mul_v G (m33_mul_v (left_jacobian u t) x) = m33_mul_v (left_jacobian u t) (m33_mul_v G x).
Proof.
  intros S G. unfold G, S, left_jacobian. cbv zeta. unfold m33_div.
  generalize ((1 - cos t) / t) ((t - sin t) / t). intros al be. clear.
  destruct u as (a & b & c & []), x as (x & y & z & []). rlazy.
  set (i2 := / (1 + 1)). set (ik := / k). unfold Rdiv. fold i2 ik. rpairs; ring.
Qed.

Lemma left_jacobian_inj (u x y : V3 R) t : unit3 u -> 0 < t <= PI ->
  m33_mul_v (left_jacobian u t) x = m33_mul_v (left_jacobian u t) y -> x = y.
Proof.
  intros U T E.
  rewrite <- (left_jacobian_inverse u x t U T), <- (left_jacobian_inverse u y t U T).
  cbv zeta. rewrite <- !jacobian_commute. now rewrite E.
Qed.

(** the logarithm undoes the exponential of a screw motion by less than a half turn *)
Lemma c46_log_exp : forall B E : M44 R, se3 B -> r_eps <= v3_norm2 (tw_w (se3_to_twist B)) < PI ->
  matrix_exponential6 B = Ok E -> matrix_log6 E = B.
Proof.
  intros B E H L X. pose proof (eps_pos K OK) as E0. rewrite (se3_form B H) in X |- *.
  set (v := tw_v (se3_to_twist B)) in *. clearbody v. set (w := tw_w (se3_to_twist B)) in *. clearbody w. clear H B.
  destruct (polar3 w) as (u & U & W). set (t := v3_norm2 w) in *. clearbody t. subst w.
  rewrite exponential6_value in X by (try assumption; lra). injection X as <-.
  destruct (log6_value u (m33_mul_v (left_jacobian u t) v) t u U U ltac:(lra) eq_refl) as (v' & -> & J).
  - apply log_regular; [exact U|lra].
  - f_equal. f_equal. exact (left_jacobian_inj u v' v t U ltac:(lra) J).
Qed.

Lemma c46_exp_log_refuted : forall p : V3 R, let A := homogeneous_from_rotation (m33_identity : M33 R) p in
  SE3 A /\ matrix_exponential6 (matrix_log6 A) <> Ok A.
Proof.
  intros p A. 
  assert (S : SE3 A).
  { apply c42_homogeneous_SE3. rewrite <- (rodrigues_0 ex). apply rodrigues_SO3. rlazy. ring. }
  split; [exact S| ]. unfold A at 1. rewrite log6_translation. destruct (c46_translation_refuted p) as (E & -> & N & _).
  intros X. apply N. congruence.
Qed.

(** the exponential never panics on any matrix, and its last row is (0,0,0,1) *)
Lemma c46_total : forall B : M44 R, exists E, matrix_exponential6 B = Ok E
  /\ mfun E 3 0 = 0 /\ mfun E 3 1 = 0 /\ mfun E 3 2 = 0 /\ mfun E 3 3 = 1.
Proof.
  intros B. unfold matrix_exponential6. destruct (se3_get_parts B) as [A v].
  destruct (nearly_zero (v3_norm2 (skew_to_vec A))) eqn:Z; [eexists; repeat split| ].
  assert (N : skew_to_vec A <> v3_zeros).
  { intros E. apply v3_norm2_zero in E. rewrite E in Z. apply (nearly_zero_false OK) in Z. rewrite Rabs_R0 in Z.
    pose proof (eps_pos K OK). lra. }
  destruct (matrix_exponential A) as [E| ] eqn:EA; [ |exfalso; exact (c44_total A EA)].
  destruct (axis_angle (skew_to_vec A)) as [aa| ] eqn:EX.
  - eexists; repeat split.
  - exfalso. revert EX. unfold axis_angle. rewrite v3_normalize_eq by exact N. discriminate.
Qed.
End R.

Section Examples.
#[local] Existing Instance f64_consts.
Let OK := f64_consts_ok.

(** a turn by 2 about z *)
Example ex_skew : skew3 (skew_from_vec [| 0; 0; 2 |] : M33 R)
  /\ r_eps <= v3_norm2 (skew_to_vec (skew_from_vec [| 0; 0; 2 |] : M33 R)) < PI.
Proof.
  pose proof (eps_small _ OK) as E. pose proof (eps_pos _ OK). pose proof PI2_1.
  split; [apply (c43_skew_antisymmetric R_ring)| ]. rewrite c43_skew_round_trip.
  assert (N : v3_norm2 [| 0; 0; 2 |] = 2).
  { replace (([| 0; 0; 2 |]) : V3 R) with (v3_scale ez 2) by (rlazy; rpairs; ring).
    rewrite v3_norm2_scale, unit3_norm, Rabs_pos_eq by (try lra; unfold unit3; rlazy; ring). ring. }
  rewrite N. lra.
Qed.

(** a screw motion: the same turn with a displacement of (1, 2, 3) *)
Example ex_SE3 : let A := homogeneous_from_rotation (rodrigues ez 2) [| 1; 2; 3 |] in
  SE3 A /\ r_eps <= rot_angle (rot_of A) /\ rot_angle (rot_of A) <> PI.
Proof.
  intros A. pose proof (eps_small _ OK) as E. pose proof PI2_1.
  assert (U : unit3 ez) by (unfold unit3; rlazy; ring).
  assert (R : rot_of A = rodrigues ez 2) by (unfold A; generalize (rodrigues ez 2); intros M; rdes; reflexivity).
  split; [apply c42_homogeneous_SE3, rodrigues_SO3, U| ]. rewrite R.
  destruct (rodrigues_angle ez 2 U ltac:(lra)) as [-> _]. lra.
Qed.

(** a half turn about the diagonal (0, 3/5, 4/5) meets the half-turn condition *)
Example ex_halfturn : let A := rodrigues [| 0; 3/5; 4/5 |] PI in
  SO3 A /\ rot_angle A = PI /\ r_eps <= 1 + mfun A 2 2.
Proof.
  intros A. pose proof (eps_small _ OK) as E. pose proof PI2_1.
  assert (U : unit3 [| 0; 3/5; 4/5 |]) by (unfold unit3; rlazy; field).
  split; [apply rodrigues_SO3, U|split; [apply (rodrigues_angle _ PI U); lra| ]].
  unfold A, rodrigues. rewrite cos_PI, sin_PI. revert E. generalize r_eps. intros e.
  lazy -[Rplus Rmult Ropp Rminus Rdiv Rinv IZR Rle Rlt]. lra.
Qed.
End Examples.
