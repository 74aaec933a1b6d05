(** * ProofsPrograms2: C85 (the quaternion and dual quaternion programs of examples/) *)

From Coq Require Import List Arith Lia Bool Reals Lra Psatz.
From Verif Require Import Base Scalar Vec Mat2 Mat3 Mat4 Mat6 Slices MatLoops MatOps Quat Transf
  DualQuat Programs RingDet Spec Entries DetEntries InstR RFacts TrigFacts ProofsRing ProofsInverse ProofsNorm
  ProofsQuat ProofsRigid ProofsRot ProofsQuatR ProofsQuatFlag ProofsQuatExp ProofsEuler ProofsDual.
Import ListNotations.
Local Open Scope R_scope.

(** [q * q * ... * q], [n] factors after the first *)
Fixpoint q_times (q : Quaternion R) (n : nat) : Quaternion R :=
  match n with O => q | S k => q_mul (q_times q k) q end.

Section R.
Context {K : RConsts} (OK : RConstsOk K).
Notation Q := (Quaternion R).
Notation DQ := (DualQuaternion R).

(** ** Turns about one axis *)

Lemma half_mul (p q : Q) (u : V3 R) a b : v3_dot u u = 1 ->
  qval p = qval (q_new (cos a) (v3_scale u (sin a))) -> qval q = qval (q_new (cos b) (v3_scale u (sin b))) ->
  qval (q_mul p q) = qval (q_new (cos (a + b)) (v3_scale u (sin (a + b)))).
Proof.
  intros U P H. rewrite (q_mul_val p q _ _ P H). rewrite cos_plus, sin_plus. revert U. clear.
  generalize (cos a) (sin a) (cos b) (sin b). intros ca sa cb sb. rdes. rlazy. intros U. rpairs; try ring.
  match type of U with ?n = 1 => transitivity (ca * cb - sa * sb * n); [ring|rewrite U; ring] end.
Qed.

Lemma q_to_rotation_val (p q : Q) : qval p = qval q -> q_to_rotation p = q_to_rotation q.
Proof.
  intros V. apply qval_parts in V as [V1 V2]. unfold q_to_rotation, q_real, q_imag. rewrite V1, V2. reflexivity.
Qed.
Lemma q_mul_v_val (p q : Q) x : qval p = qval q -> q_mul_v p x = q_mul_v q x.
Proof. intros V. apply qval_parts in V as [V1 V2]. unfold q_mul_v. rewrite V1, V2. reflexivity. Qed.

Lemma norm_encoded_half v : r_eps <= v3_norm2 v ->
  v3_dot (unit_of v) (unit_of v) = 1 /\
  qval (q_rotation_norm_encoded v) = qval (q_new (cos (v3_norm2 v / 2)) (v3_scale (unit_of v) (sin (v3_norm2 v / 2)))).
Proof.
  intros H. pose proof (eps_pos K OK) as He.
  assert (N : v <> v3_zeros) by (intros E; apply v3_norm2_zero in E; lra).
  split; [now apply unit_of_unit| ].
  pose proof (c29_norm_encoded OK v H) as E. unfold q_rotation in E. rewrite v3_normalize_eq in E by exact N.
  cbn [bind unwrap sin_cos fsin fcos R_Float one add div R_Num] in E.
  injection E as <-. replace (1 + 1) with 2 by ring. reflexivity.
Qed.

(** [n] turns of [|v|] about [v] are one turn of [n |v|] *)
Lemma c85_turns : forall n v x, r_eps <= v3_norm2 v ->
  q_mul_v (q_times (q_rotation_norm_encoded v) n) x = m33_mul_v (rodrigues (unit_of v) (INR (S n) * v3_norm2 v)) x.
Proof.
  intros n v x H. destruct (norm_encoded_half v H) as [U V].
  assert (P : qval (q_times (q_rotation_norm_encoded v) n)
    = qval (q_new (cos (INR (S n) * v3_norm2 v / 2)) (v3_scale (unit_of v) (sin (INR (S n) * v3_norm2 v / 2))))).
  { induction n as [ |n IH].
    - cbn [q_times INR]. rewrite Rmult_1_l. exact V.
    - cbn [q_times]. rewrite (half_mul _ _ _ _ _ U IH V).
      replace (INR (S n) * v3_norm2 v / 2 + v3_norm2 v / 2) with (INR (S (S n)) * v3_norm2 v / 2); [reflexivity| ].
      rewrite (S_INR (S n)). field. }
  rewrite (q_mul_v_val _ _ x P), <- (c27_to_rotation_action R_ring) by now apply half_angle_quat_unit.
  now rewrite half_angle_quat_rotation.
Qed.

(** when they add up to whole turns, every vector comes back; the tolerance of
    [rotation_norm_encoded] does not matter *)
Lemma c85_full_turns : forall n k v x, INR (S n) * v3_norm2 v = 2 * PI * INR k ->
  q_mul_v (q_times (q_rotation_norm_encoded v) n) x = x.
Proof.
  intros n k v x E. destruct (Rlt_le_dec (v3_norm2 v) r_eps) as [L|L].
  - rewrite (c29_norm_encoded_tiny OK v L).
    assert (P : qval (q_times (q_new 1 v3_zeros) n) = qval (q_new 1 v3_zeros : Q)).
    { clear. induction n as [ |n IH]; [reflexivity| ]. cbn [q_times].
      rewrite (q_mul_val _ _ _ _ IH eq_refl). rlazy. rpairs; ring. }
    rewrite (q_mul_v_val _ _ x P). clear. rr.
  - rewrite (c85_turns n v x L), E.
    replace (2 * PI * INR k) with (0 + 2 * INR k * PI) by ring. unfold rodrigues. cbv zeta.
    rewrite cos_period, sin_period, cos_0, sin_0. generalize (unit_of v). clear. rr.
Qed.

(** the program: four turns about one axis *)
Lemma c85_quaternions_turns : forall v x,
  (r_eps <= v3_norm2 v -> quaternions_turns v x = m33_mul_v (rodrigues (unit_of v) (4 * v3_norm2 v)) x)
  /\ (forall k, v3_norm2 v = PI / 2 * INR k -> quaternions_turns v x = x).
Proof.
  intros v x. change (quaternions_turns v x) with (q_mul_v (q_times (q_rotation_norm_encoded v) 3) x). split.
  - intros H. rewrite (c85_turns 3 v x H). replace (INR 4) with 4 by (cbn; ring). reflexivity.
  - intros k E. apply (c85_full_turns 3 k). rewrite E. replace (INR 4) with 4 by (cbn; ring). field.
Qed.

(** ** Euler angles *)

(** the angles come back, in the usual ranges, unless the cosine of the pitch is below four epsilon *)
Lemma c85_quaternions_euler_partial : forall y p r, - PI < y <= PI -> - PI < r <= PI ->
  - (PI / 2) < p < PI / 2 -> 4 * r_eps <= cos p -> quaternions_euler y p r = (y, p, r).
Proof.
  intros y p r Hy Hr Hp Hc. unfold quaternions_euler, q_to_euler_angles.
  rewrite (proj1 (proj2 (proj2 (c30_from_euler_angles y p r)))).
  pose proof (eps_pos K OK) as He. pose proof PI_RGT_0 as HPI.
  set (m := euler_to_rotation y p r None).
  assert (E00 : mfun m 0 0 = cos p * cos y) by (unfold m; rlazy; ring).
  assert (E10 : mfun m 1 0 = cos p * sin y) by (unfold m; rlazy; ring).
  assert (E20 : mfun m 2 0 = - sin p) by (unfold m; rlazy; ring).
  assert (E21 : mfun m 2 1 = cos p * sin r) by (unfold m; rlazy; ring).
  assert (E22 : mfun m 2 2 = cos p * cos r) by (unfold m; rlazy; ring).
  assert (CP : cos_pitch m = cos p).
  { unfold cos_pitch. rewrite E00, E10. pose proof (sin2_cos2' y) as S.
    replace (cos p * cos y * (cos p * cos y) + cos p * sin y * (cos p * sin y)) with (cos p * cos p * (sin y * sin y + cos y * cos y)) by ring.
    rewrite S, Rmult_1_r. apply sqrt_square. lra. }
  assert (PP : Ratan2 (- mfun m 2 0) (cos_pitch m) = p).
  { rewrite CP, E20, Ropp_involutive. pose proof (Ratan2_polar p 1 ltac:(lra) ltac:(lra)) as A. now rewrite !Rmult_1_l in A. }
  unfold rotation_to_euler.
  match goal with |- context [nearly_equal ?p _ _] => change p with (Ratan2 (- mfun m 2 0) (cos_pitch m)) end.
  rewrite PP. cbn [FRAC_PI_2 one zero mul neg R_Num R_Signed R_Float epsilon fatan2].
  replace (nearly_equal p (- (1) * (PI / 2)) r_eps) with false.
  2:{ symmetry. apply not_true_is_false. intros Y.
      replace (- (1) * (PI / 2)) with (-1 * (PI / 2)) in Y by ring.
      apply (near_half_pi OK) in Y; lra. }
  replace (nearly_equal p (PI / 2) r_eps) with false.
  2:{ symmetry. apply not_true_is_false. intros Y. rewrite <- (Rmult_1_l (PI / 2)) in Y.
      apply (near_half_pi OK) in Y; lra. }
  change (Ratan2 (mfun m 1 0) (mfun m 0 0), p, Ratan2 (mfun m 2 1) (mfun m 2 2)) with (Ratan2 (mfun m 1 0) (mfun m 0 0), p, Ratan2 (mfun m 2 1) (mfun m 2 2)).
  transitivity (Ratan2 (mfun m 1 0) (mfun m 0 0), p, Ratan2 (mfun m 2 1) (mfun m 2 2)); [reflexivity| ].
  rewrite E00, E10, E21, E22, !Ratan2_polar by lra. reflexivity.
Qed.

(** at gimbal lock they do not: a roll comes back as zero *)
Lemma c85_quaternions_euler_refuted : exists y p r, - PI < y <= PI /\ - PI < r <= PI /\ - (PI / 2) <= p <= PI / 2
  /\ quaternions_euler y p r <> (y, p, r).
Proof.
  pose proof PI_RGT_0 as HPI. exists 0, (PI / 2), (PI / 2). repeat split; try lra.
  unfold quaternions_euler, q_to_euler_angles.
  rewrite (proj1 (proj2 (proj2 (c30_from_euler_angles 0 (PI / 2) (PI / 2))))).
  set (m := euler_to_rotation 0 (PI / 2) (PI / 2) None).
  assert (E00 : mfun m 0 0 = 0) by (unfold m; rlazy; rewrite ?sin_0, ?cos_0, ?sin_PI2, ?cos_PI2; ring).
  assert (E10 : mfun m 1 0 = 0) by (unfold m; rlazy; rewrite ?sin_0, ?cos_0, ?sin_PI2, ?cos_PI2; ring).
  assert (E20 : mfun m 2 0 = -1) by (unfold m; rlazy; rewrite ?sin_0, ?cos_0, ?sin_PI2, ?cos_PI2; ring).
  assert (PP : Ratan2 (- mfun m 2 0) (cos_pitch m) = PI / 2).
  { unfold cos_pitch. rewrite E00, E10, E20, Rmult_0_l, Rplus_0_l, sqrt_0.
    replace (- -1) with (1 * sin (PI / 2)) by (rewrite sin_PI2; ring).
    replace 0 with (1 * cos (PI / 2)) at 1 by (rewrite cos_PI2; ring). apply Ratan2_polar; lra. }
  unfold rotation_to_euler.
  match goal with |- context [nearly_equal ?p _ _] => change p with (Ratan2 (- mfun m 2 0) (cos_pitch m)) end.
  rewrite PP. cbn [FRAC_PI_2 one zero mul neg R_Num R_Signed R_Float epsilon fatan2].
  rewrite nearly_equal_refl.
  destruct (nearly_equal (PI / 2) (- (1) * (PI / 2)) r_eps); intros E; injection E; lra.
Qed.

(** ** Dual quaternions *)

(** [t] and [double] are the same; [normal] and [combined] are the same; [combined2] is the same up
    to the sign, so the same motion *)
Lemma c85_dual_quaternions : forall y p r (pos x : V3 R),
  exists t double normal combined combined2,
  dual_quaternions y p r pos x = Ok (t, double, normal, combined, combined2)
  /\ SE3 t /\ double = t /\ dqval combined = dqval normal
  /\ (dqval combined2 = dqval normal \/ dqval combined2 = dqval (dq_neg normal))
  /\ dq_to_homogeneous normal = homogeneous_from_rotation (euler_to_rotation y p r None) x
  /\ dq_to_homogeneous combined2 = dq_to_homogeneous normal.
Proof.
  intros y p r pos x. set (q := q_from_euler_angles y p r).
  destruct (c30_from_euler_angles y p r) as (U & F & R1 & _). fold q in U, F, R1.
  destruct (c42_from_quaternion q pos U) as [S _].
  destruct (c37_homogeneous_round_trip OK _ S) as (a & E1 & _ & _ & E2).
  assert (N : q_normalize q = Some q) by (unfold q_normalize; rewrite F; reflexivity).
  destruct (c37_rot_trans OK q q x (fun _ => U) N) as (n & E3 & Un & _ & Rn & Tn & _ & Hn).
  pose proof (c37_translation_then_rotation OK q x n U E3) as C.
  set (rot := euler_to_rotation y p r None) in *.
  destruct (c28_from_rotation rot (c30_euler_SO3 None y p r)) as [U2 R2].
  set (w := q_from_rotation rot) in *.
  assert (G : qval w = qval q \/ qval w = qval (q_neg q)).
  { apply to_rotation_determines; [exact U2|exact U| ]. now rewrite R2, R1. }
  exists (homogeneous_from_quaternion q pos), (dq_to_homogeneous a), n,
    (dq_mul (dq_new_from_translation x) (dq_new_from_rotation q)),
    (dq_mul (dq_new_from_translation x) (dq_new_from_rotation_matrix rot)).
  split.
  { unfold dual_quaternions. cbv zeta. fold q. rewrite E1. cbn [bind]. rewrite E3. reflexivity. }
  split; [exact S|split; [exact E2|split; [exact C|split; [ |split]]]].
  - rewrite <- C.
    assert (X : forall s, qval w = qval s ->
      dqval (dq_mul (dq_new_from_translation x) (dq_new_from_rotation_matrix rot))
      = dqval (dq_mul (dq_new_from_translation x) (dq_new_from_rotation s))).
    { intros s Es. apply dq_mul_val; [reflexivity| ]. apply dqval_eq. split; [exact Es|reflexivity]. }
    destruct G as [G|G]; [left; now apply X|right]. rewrite (X _ G).
    transitivity (dqval (dq_neg (dq_mul (dq_new_from_translation x) (dq_new_from_rotation q)))).
    + clear. generalize q. clear. intros q. rr.
    + revert C. generalize (dq_mul (dq_new_from_translation x) (dq_new_from_rotation q)). clear. intros b. rdes. rlazy.
      intros E. injection E as -> -> -> -> -> -> -> ->. reflexivity.
  - rewrite Hn, R1. reflexivity.
  - rewrite (c36_to_homogeneous_mul R_ring) by exact U2. rewrite Hn, R1.
    change (dq_new_from_rotation_matrix rot) with (dq_new_from_rotation w). clearbody w. rewrite <- R2. clear.
    transitivity (m44_mul (homogeneous_from_rotation m33_identity x) (homogeneous_from_rotation (q_to_rotation w) v3_zeros)).
    + f_equal; [clear|generalize w; clear]; intros; rdes; rlazy; rpairs; field.
    + generalize (q_to_rotation w). clear. intros m. destruct m as ((? & ? & ? & []) & (? & ? & ? & []) & (? & ? & ? & []) & []). rdes. rlazy. rpairs; ring.
Qed.

(** the rotation by [theta] about the unit vector [l], followed by the translation by [d l], has the
    screw parameters [l], 0, [theta], [d] *)
Lemma c85_screw_parameters : forall (l : V3 R) theta d, unit3 l -> r_eps <= theta < 2 * PI ->
  screw_parameters (v3_scale l theta) (v3_scale l d) = Ok (l, v3_zeros, theta, d).
Proof.
  intros l theta d U T. pose proof (eps_pos K OK) as He.
  assert (NL : v3_norm2 (v3_scale l theta) = theta).
  { rewrite v3_norm2_scale, (unit3_norm l U), Rabs_pos_eq by lra. ring. }
  destruct (norm_encoded_half (v3_scale l theta)) as [_ V]; [lra| ]. rewrite NL in V.
  assert (UL : unit_of (v3_scale l theta) = l).
  { unfold unit_of. rewrite <- (c18_norm2_dot D3 (v3_scale l theta) : v3_norm2 _ = sqrt (v3_dot _ _)), NL, v3_scale_scale, Rinv_r by lra.
    apply v3_scale_1. }
  rewrite UL in V. unfold screw_parameters. set (q := q_rotation_norm_encoded (v3_scale l theta)) in *.
  assert (F : normalized q = true).
  { unfold q, q_rotation_norm_encoded. rewrite NL.
    replace (nearly_zero theta) with false by (symmetry; apply (nearly_zero_false OK); rewrite Rabs_pos_eq; lra). reflexivity. }
  assert (N : q_normalize q = Some q) by (unfold q_normalize; rewrite F; reflexivity).
  rewrite (rot_trans_value q q _ N). cbn [bind].
  destruct (c39_screw_parameters OK l v3_zeros theta d U) as [_ E]; [clear; rr|exact T| ].
  rewrite <- E. f_equal. set (s := dq_new_from_screw_parameters l v3_zeros theta d) in *.
  set (a := mkDQ q _ true).
  assert (W : dqval a = dqval s).
  { unfold s. rewrite new_from_screw_value. unfold a, screw. apply qval_parts in V as [V1 V2].
    destruct q as [q0' q1' f']. cbn [Quat.q0 Quat.q q_new] in V1, V2. subst q0' q1'.
    revert U. unfold unit3. clear. generalize (cos (theta / 2)) (sin (theta / 2)). intros c s. rdes. rlazy. intros U.
    rpairs; try field.
    match type of U with ?n = 1 => transitivity (- (d / 2) * s * n); [field|rewrite U; ring] end. }
  apply dqval_eq in W as [W1 W2]. apply qval_parts in W1 as [A1 A2], W2 as [B1 B2].
  unfold dq_get_screw_parameters, dq_get_translation, q_get_angle, q_imag, q_mul, q_conj, q_scale, q_real in *.
  cbn [Quat.q0 Quat.q q_new] in *.
  rewrite A1, A2, B1, B2. reflexivity.
Qed.

(** the program's comparison: the fourth coordinate is 0, so both sides are the rotated point *)
Lemma c85_transform_points : forall y p r (trans x : V3 R),
  exists expected result, transform_points y p r trans x = Ok (expected, result)
  /\ expected = [| vfun result 0; vfun result 1; vfun result 2; 0 |]
  /\ result = m33_mul_v (euler_to_rotation y p r None) x.
Proof.
  intros y p r trans x. set (q := q_from_euler_angles y p r).
  destruct (c30_from_euler_angles y p r) as (U & F & R1 & _). fold q in U, F, R1.
  destruct (c42_from_quaternion q trans U) as [S _].
  destruct (from_homogeneous_value OK _ S) as (w & V & Uw & E).
  assert (X : q_to_rotation w = q_to_rotation q).
  { rewrite (q_to_rotation_val _ _ V). transitivity (rot_of (homogeneous_from_quaternion q trans)).
    - apply (c28_from_rotation _ (proj1 S)).
    - unfold homogeneous_from_quaternion. generalize (q_to_rotation q). clear. intros m. destruct m as ((? & ? & ? & []) & (? & ? & ? & []) & (? & ? & ? & []) & []). rdes. reflexivity. }
  unfold transform_points. cbv zeta. fold q. rewrite E. cbn [bind].
  eexists _, _. split; [reflexivity| ].
  rewrite (c36_transform_point_rotates R_ring). cbn [dq_real q_real_]. rewrite <- (c27_to_rotation_sandwich R_ring), X.
  split; [ |now rewrite R1].
  unfold homogeneous_from_quaternion. generalize (q_to_rotation q). clear. intros m. destruct m as ((? & ? & ? & []) & (? & ? & ? & []) & (? & ? & ? & []) & []). rdes. rlazy. rpairs; ring.
Qed.

(** ** Cases *)

(** the data of quaternions.rs: four quarter turns about z *)
Example C85_turns_case : quaternions_turns [| 0; 0; PI / 2 |] [| 1; 0; 0 |] = [| 1; 0; 0 |].
Proof.
  pose proof PI_RGT_0 as HPI. apply (proj2 (c85_quaternions_turns _ _) 1%nat).
  replace ([| 0; 0; PI / 2 |] : V3 R) with (v3_scale [| 0; 0; 1 |] (PI / 2) : V3 R) by (rlazy; rpairs; ring).
  rewrite v3_norm2_scale, (unit3_norm [| 0; 0; 1 |]) by (rlazy; ring). cbn [INR]. rewrite Rabs_pos_eq; lra.
Qed.

(** two of them are a half turn *)
Example C85_half_turn_case : q_mul_v (q_times (q_rotation_norm_encoded [| 0; 0; PI / 2 |]) 1) [| 1; 2; 3 |] = [| -1; -2; 3 |].
Proof.
  pose proof PI_RGT_0 as HPI. pose proof PI2_1 as HP1. pose proof (eps_small K OK) as He.
  assert (N : v3_norm2 ([| 0; 0; PI / 2 |] : V3 R) = PI / 2).
  { replace ([| 0; 0; PI / 2 |] : V3 R) with (v3_scale [| 0; 0; 1 |] (PI / 2) : V3 R) by (rlazy; rpairs; ring).
    rewrite v3_norm2_scale, (unit3_norm [| 0; 0; 1 |]) by (rlazy; ring). rewrite Rabs_pos_eq; lra. }
  rewrite c85_turns by (rewrite N; lra). unfold unit_of.
  rewrite <- (c18_norm2_dot D3 [| 0; 0; PI / 2 |] : v3_norm2 _ = sqrt (v3_dot _ _)), N.
  replace (INR 2 * (PI / 2)) with PI by (cbn; field).
  unfold rodrigues. cbv zeta. rewrite cos_PI, sin_PI. rlazy. rpairs; field; lra.
Qed.

Example C85_euler_case : quaternions_euler (2 * PI / 3) (PI / 6) (- PI / 4) = (2 * PI / 3, PI / 6, - PI / 4).
Proof.
  pose proof PI_RGT_0 as HPI. pose proof (eps_small K OK) as He.
  apply c85_quaternions_euler_partial; try lra.
  apply Rle_trans with (cos (PI / 3)); [rewrite cos_PI3; lra|left; apply cos_decreasing_1; lra].
Qed.

(** the data of dual_quaternion_screw_parameters.rs *)
Example C85_screw_case : screw_parameters [| 0; 0; PI / 4 |] [| 0; 0; 7 |] = Ok ([| 0; 0; 1 |], v3_zeros, PI / 4, 7).
Proof.
  pose proof PI2_1 as HP1. pose proof (eps_small K OK) as He.
  replace ([| 0; 0; PI / 4 |] : V3 R) with (v3_scale [| 0; 0; 1 |] (PI / 4) : V3 R) by (rlazy; rpairs; ring).
  replace ([| 0; 0; 7 |] : V3 R) with (v3_scale [| 0; 0; 1 |] 7 : V3 R) by (rlazy; rpairs; ring).
  apply c85_screw_parameters; [rlazy; ring|lra].
Qed.

(** a quarter turn about z and a translation: the translation is not in the result *)
Example C85_transform_case :
  transform_points (PI / 2) 0 0 [| 5; 6; 7 |] [| 1; 2; 3 |] = Ok ([| -2; 1; 3; 0 |], [| -2; 1; 3 |]).
Proof.
  destruct (c85_transform_points (PI / 2) 0 0 [| 5; 6; 7 |] [| 1; 2; 3 |]) as (e & r & -> & -> & ->).
  f_equal. rlazy. rewrite sin_PI2, cos_PI2, sin_0, cos_0. rpairs; ring.
Qed.
End R.
