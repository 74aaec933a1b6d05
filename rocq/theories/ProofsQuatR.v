(** * ProofsQuatR: quaternions over the reals: C29 (axis and angle), C32
      (normalize, inverse, division, the cached flag) *)

From Coq Require Import List Arith Lia Bool Reals Lra Psatz.
From Verif Require Import Base Scalar Vec Mat2 Mat3 Mat4 Mat6 Slices MatLoops MatOps Quat Transf
  DualQuat RingDet Spec Entries DetEntries InstR RFacts TrigFacts ProofsRing ProofsInverse ProofsNorm
  ProofsQuat ProofsRigid ProofsRot.
Import ListNotations.
Local Open Scope R_scope.

Section R.
Context {K : RConsts} (OK : RConstsOk K).

(** ** Norms of 3-vectors *)

Lemma v3_norm2_sq (v : V3 R) : v3_norm2 v * v3_norm2 v = v3_dot v v.
Proof.
  rewrite (c18_norm2_dot D3 v : v3_norm2 v = sqrt (v3_dot v v)).
  apply sqrt_sqrt. exact (c18_dot_nonneg D3 v).
Qed.
Lemma v3_norm2_nonneg (v : V3 R) : 0 <= v3_norm2 v.
Proof. rewrite (c18_norm2_dot D3 v : v3_norm2 v = sqrt (v3_dot v v)). apply sqrt_pos. Qed.
Lemma v3_norm2_zero (v : V3 R) : v3_norm2 v = 0 <-> v = v3_zeros.
Proof.
  rewrite <- (c18_dot_zero_iff D3 v : v3_dot v v = 0 <-> v = v3_zeros).
  rewrite <- v3_norm2_sq. split; [intros ->; ring| ]. intros H. nra.
Qed.
Lemma v3_norm2_scale (v : V3 R) s : v3_norm2 (v3_scale v s) = Rabs s * v3_norm2 v.
Proof. exact (c18_norm2_scale D3 v s). Qed.
Lemma v3_dot_scale (v : V3 R) s : v3_dot (v3_scale v s) (v3_scale v s) = s * s * v3_dot v v.
Proof. rr. Qed.
Lemma v3_scale_scale (v : V3 R) s t : v3_scale (v3_scale v s) t = v3_scale v (s * t).
Proof. rr. Qed.
Lemma v3_scale_1 (v : V3 R) : v3_scale v 1 = v.
Proof. rr. Qed.
Lemma v3_scale_0 (v : V3 R) : v3_scale v 0 = v3_zeros.
Proof. rr. Qed.
Lemma v3_scale_zeros s : v3_scale (v3_zeros : V3 R) s = v3_zeros.
Proof. rr. Qed.
Lemma v3_div_scale (v : V3 R) s : v3_div v s = v3_scale v (/ s).
Proof. rdes. reflexivity. Qed.

Lemma qnormsq_dot (q : Quaternion R) : qnormsq q = q0 q * q0 q + v3_dot (Quat.q q) (Quat.q q).
Proof. rr. Qed.
Lemma qnormsq_nonneg (q : Quaternion R) : 0 <= qnormsq q.
Proof. rdes. rlazy. nra. Qed.
Lemma q_norm2_sqrt (q : Quaternion R) : q_norm2 q = sqrt (qnormsq q).
Proof. unfold q_norm2. cbn [fsqrt R_Float]. f_equal. rr. Qed.
Lemma q_norm2_sq (q : Quaternion R) : q_norm2 q * q_norm2 q = qnormsq q.
Proof. rewrite q_norm2_sqrt. apply sqrt_sqrt, qnormsq_nonneg. Qed.
Lemma q_norm2_nonneg (q : Quaternion R) : 0 <= q_norm2 q.
Proof. rewrite q_norm2_sqrt. apply sqrt_pos. Qed.
Lemma q_norm2_zero (q : Quaternion R) : q_norm2 q = 0 <-> qval q = (0, 0, 0, 0).
Proof.
  split.
  - intros H. pose proof (q_norm2_sq q) as E. rewrite H in E. revert E. clear H. rdes. rlazy. intros E.
    repeat (match goal with |- (_, _) = (_, _) => f_equal end); nra.
  - intros H. rewrite q_norm2_sqrt. replace (qnormsq q) with 0; [apply sqrt_0| ].
    unfold qnormsq. rewrite H. rlazy. ring.
Qed.

(** ** C29 *)

(** the unit vector along v *)
Definition unit_of (v : V3 R) : V3 R := v3_scale v (/ sqrt (v3_dot v v)).

Lemma unit_of_unit v : v <> v3_zeros -> v3_dot (unit_of v) (unit_of v) = 1.
Proof.
  intros H. unfold unit_of. rewrite v3_dot_scale.
  assert (P : 0 < v3_dot v v).
  { pose proof (c18_dot_nonneg D3 v : 0 <= v3_dot v v) as N. destruct N as [N|N]; [exact N| ].
    symmetry in N. apply (c18_dot_zero_iff D3 v) in N. contradiction. }
  pose proof (sqrt_sqrt _ (Rlt_le _ _ P)) as S.
  assert (0 < sqrt (v3_dot v v)) by (now apply sqrt_lt_R0).
  set (s := sqrt (v3_dot v v)) in *. rewrite <- S. field. lra.
Qed.

Lemma v3_normalize_eq v : v <> v3_zeros -> v3_normalize v = Ok (Some (unit_of v)).
Proof.
  intros H. destruct (c19_normalize_ok D3 v H) as (u & E & _ & S).
  change (v3_normalize v = Ok (Some u)) in E. rewrite E. do 2 f_equal.
  change (v3_scale u (v3_norm2 v) = v) in S.
  assert (N : v3_norm2 v <> 0) by (intros Z; apply H; now apply v3_norm2_zero).
  unfold unit_of. rewrite <- (c18_norm2_dot D3 v : v3_norm2 v = sqrt (v3_dot v v)).
  rewrite <- S at 1. rewrite v3_scale_scale. replace (v3_norm2 v * / v3_norm2 v) with 1 by (field; exact N).
  symmetry. apply v3_scale_1.
Qed.

Lemma c29_rotation : forall theta v, v <> v3_zeros ->
  exists q, q_rotation theta v = Ok q /\ normalized q = true /\ unit_quat q
    /\ q_to_rotation q = rodrigues (unit_of v) theta
    /\ forall x, q_mul_v q x = m33_mul_v (rodrigues (unit_of v) theta) x.
Proof.
  intros theta v H. unfold q_rotation. rewrite v3_normalize_eq by exact H. cbn [bind unwrap].
  cbn [sin_cos fsin fcos R_Float one add div R_Num]. replace (1 + 1) with 2 by ring.
  eexists. split; [reflexivity| ]. split; [reflexivity| ].
  pose proof (unit_of_unit v H) as U.
  pose proof (half_angle_quat_unit _ theta U) as HU. pose proof (half_angle_quat_rotation _ theta U) as HR.
  split; [exact HU|split; [exact HR| ]].
  intros x. rewrite <- HR. symmetry. exact (c27_to_rotation_action R_ring _ x HU).
Qed.

Lemma c29_rotation_panic_iff : forall theta v, q_rotation theta v = Panic <-> v = v3_zeros.
Proof.
  intros theta v. split.
  - intros H. assert (D : v = v3_zeros \/ v <> v3_zeros).
    { rewrite <- v3_norm2_zero. destruct (Req_dec (v3_norm2 v) 0); auto. }
    destruct D as [D|D]; [exact D| ]. destruct (c29_rotation theta v D) as (q & E & _). congruence.
  - intros ->. unfold q_rotation.
    rewrite (proj2 (c19_normalize_err_iff D3 v3_zeros) eq_refl : v3_normalize v3_zeros = Ok None).
    reflexivity.
Qed.

(** Rodrigues' matrix is the rotation about its axis by its angle: it fixes the
    axis and turns the orthogonal plane *)
Lemma c29_rodrigues_meaning : forall u a, v3_dot u u = 1 ->
  m33_mul_v (rodrigues u a) u = u
  /\ forall x, v3_dot u x = 0 ->
     m33_mul_v (rodrigues u a) x = v3_add (v3_scale x (cos a)) (v3_scale (v3_cross u x) (sin a)).
Proof.
  intros u a H. split.
  - revert H. destruct u as (x & y & z & []). rlazy. set (c := cos a). set (s := sin a). intros H.
    rpairs.
    + transitivity (x * (c + (x * x + y * y + z * z) * (1 - c))); [ring|rewrite H; ring].
    + transitivity (y * (c + (x * x + y * y + z * z) * (1 - c))); [ring|rewrite H; ring].
    + transitivity (z * (c + (x * x + y * y + z * z) * (1 - c))); [ring|rewrite H; ring].
  - intros w. clear H. destruct u as (x & y & z & []), w as (p & q & r & []). rlazy.
    set (c := cos a). set (s := sin a). intros H. rpairs.
    + transitivity (p * c + (y * r - z * q) * s + x * (1 - c) * (x * p + y * q + z * r)); [ring|rewrite H; ring].
    + transitivity (q * c + (z * p - x * r) * s + y * (1 - c) * (x * p + y * q + z * r)); [ring|rewrite H; ring].
    + transitivity (r * c + (x * q - y * p) * s + z * (1 - c) * (x * p + y * q + z * r)); [ring|rewrite H; ring].
Qed.

(** rotation_norm_encoded: the rotation vector, up to the tolerance *)
Lemma c29_norm_encoded : forall v, r_eps <= v3_norm2 v ->
  q_rotation (v3_norm2 v) v = Ok (q_rotation_norm_encoded v).
Proof.
  intros v H. pose proof (eps_pos K OK) as He.
  assert (N : v <> v3_zeros) by (intros E; apply v3_norm2_zero in E; lra).
  unfold q_rotation_norm_encoded, q_rotation. rewrite v3_normalize_eq by exact N. cbn [bind unwrap].
  replace (nearly_zero (v3_norm2 v)) with false
    by (symmetry; apply (nearly_zero_false OK); rewrite Rabs_pos_eq; lra).
  cbn [negb sin_cos fsin fcos R_Float one add div R_Num lit_2]. replace (1 + 1) with 2 by ring.
  do 2 f_equal. unfold unit_of. rewrite <- (c18_norm2_dot D3 v : v3_norm2 v = sqrt (v3_dot v v)).
  rewrite v3_scale_scale. f_equal. unfold Rdiv. ring.
Qed.

(** below the tolerance the result is the identity rotation *)
Lemma c29_norm_encoded_tiny : forall v, v3_norm2 v < r_eps ->
  q_rotation_norm_encoded v = q_new 1 v3_zeros.
Proof.
  intros v H. unfold q_rotation_norm_encoded.
  replace (nearly_zero (v3_norm2 v)) with true; [reflexivity| ].
  symmetry. apply (nearly_zero_iff OK). rewrite Rabs_pos_eq; [exact H|apply v3_norm2_nonneg].
Qed.

Lemma c29_norm_encoded_always_refuted : exists v, v <> v3_zeros /\
  forall q, q_rotation (v3_norm2 v) v = Ok q -> qval q <> qval (q_rotation_norm_encoded v).
Proof.
  pose proof (eps_pos K OK) as He. pose proof (eps_small K OK) as Hs. set (e := r_eps / 2).
  exists [| e; 0; 0 |].
  assert (N : v3_norm2 [| e; 0; 0 |] = e).
  { cbn -[Rplus Rmult sqrt]. replace (e * e + 0 * 0 + 0 * 0) with (e * e) by ring.
    apply sqrt_square. unfold e. lra. }
  assert (NZ : [| e; 0; 0 |] <> v3_zeros).
  { intros E. apply v3_norm2_zero in E. rewrite N in E. unfold e in E. lra. }
  split; [exact NZ| ]. intros q E.
  rewrite c29_norm_encoded_tiny by (rewrite N; unfold e; lra).
  unfold q_rotation in E. rewrite N, v3_normalize_eq in E by exact NZ. cbn [bind unwrap] in E.
  cbn [sin_cos fsin fcos R_Float] in E. injection E as <-.
  intros E. apply (f_equal (fun z => fst (fst (fst z)))) in E.
  cbn [fst qval q0 q_new one add div R_Num] in E.
  replace (e / (1 + 1)) with (e / 2) in E by field.
  assert (S : 0 < sin (e / 2)).
  { apply sin_gt_0; unfold e; pose proof PI2_1; lra. }
  pose proof (sin2_cos2' (e / 2)) as Q. rewrite E in Q. nra.
Qed.

(** get_angle *)
Lemma c29_angle_range : forall q, 0 <= q_get_angle q <= 2 * PI.
Proof.
  intros q. unfold q_get_angle. cbn [one add mul R_Num fatan2 R_Float].
  pose proof (Ratan2_nonneg (q0 q) (v3_norm2 (Quat.q q)) (v3_norm2_nonneg _)). lra.
Qed.

Lemma c29_get_angle : forall theta v q, 0 <= theta <= 2 * PI ->
  q_rotation theta v = Ok q -> q_get_angle q = theta.
Proof.
  intros theta v q Ht H.
  assert (N : v <> v3_zeros) by (intros E; apply (c29_rotation_panic_iff theta) in E; congruence).
  unfold q_rotation in H. rewrite v3_normalize_eq in H by exact N. cbn [bind unwrap] in H.
  cbn [sin_cos fsin fcos R_Float one add div R_Num] in H. replace (1 + 1) with 2 in H by ring.
  injection H as <-. unfold q_get_angle. cbn [Quat.q q0 one add mul R_Num fatan2 R_Float].
  rewrite v3_norm2_scale.
  assert (U : v3_norm2 (unit_of v) = 1).
  { rewrite (c18_norm2_dot D3 (unit_of v) : v3_norm2 _ = sqrt (v3_dot _ _)), unit_of_unit by exact N.
    apply sqrt_1. }
  rewrite U, Rabs_pos_eq by (apply sin_ge_0; lra).
  replace (sin (theta / 2) * 1) with (1 * sin (theta / 2)) by ring.
  replace (cos (theta / 2)) with (1 * cos (theta / 2)) by ring.
  pose proof PI_RGT_0. rewrite Ratan2_polar by lra. field.
Qed.

(** get_axis recovers the axis whenever the angle is not (nearly) 0 or 2 PI *)
Lemma c29_get_axis : forall theta v q, 0 <= theta <= 2 * PI ->
  q_rotation theta v = Ok q ->
  q_get_axis q = if Rlt_dec r_eps (sin (theta / 2)) then Some (unit_of v) else None.
Proof.
  intros theta v q Ht H. pose proof (c29_get_angle theta v q Ht H) as A.
  assert (N : v <> v3_zeros) by (intros E; apply (c29_rotation_panic_iff theta) in E; congruence).
  unfold q_rotation in H. rewrite v3_normalize_eq in H by exact N. cbn [bind unwrap] in H.
  cbn [sin_cos fsin fcos R_Float one add div R_Num] in H. replace (1 + 1) with 2 in H by ring.
  injection H as <-. unfold q_get_axis, q_normalize. cbn [normalized]. rewrite A.
  cbn [Quat.q fsin R_Float lit_2 div R_Num epsilon ltb R_POrd abs R_Signed].
  assert (S : 0 <= sin (theta / 2)) by (apply sin_ge_0; lra).
  rewrite (Rabs_pos_eq _ S). destruct (Rltb_spec r_eps (sin (theta / 2))) as [L|L].
  - destruct (Rlt_dec r_eps (sin (theta / 2))); [ |contradiction]. f_equal.
    pose proof (eps_pos K OK). rewrite v3_div_scale, v3_scale_scale.
    replace (sin (theta / 2) * / sin (theta / 2)) with 1 by (field; lra). apply v3_scale_1.
  - destruct (Rlt_dec r_eps (sin (theta / 2))); [contradiction|reflexivity].
Qed.

(** conversely every unit quaternion is the rotation about its axis by its angle *)
Lemma c29_axis_angle_round_trip : forall q a, unit_quat q ->
  fst (q_axis_angle q) = Some a ->
  exists p, q_rotation (snd (q_axis_angle q)) a = Ok p /\ qval p = qval q.
Proof.
  intros q a U H. unfold q_axis_angle in *. cbn [fst snd] in *.
  assert (AN : exists qn, q_normalize q = Some qn /\ qval qn = qval q).
  { unfold q_normalize. destruct (normalized q) eqn:F; [eauto| ].
    assert (N1 : q_norm2 q = 1) by (rewrite q_norm2_sqrt; rewrite U; apply sqrt_1).
    rewrite N1. replace (nearly_zero 1) with false.
    2:{ symmetry. apply (nearly_zero_false OK). rewrite Rabs_R1. pose proof (eps_small K OK). lra. }
    cbn [negb]. eexists. split; [reflexivity| ]. clear. rdes. rlazy. rpairs; field. }
  destruct AN as (qn & En & Vn). unfold q_get_axis in H. rewrite En in H.
  assert (Uq : q0 qn = q0 q /\ Quat.q qn = Quat.q q).
  { clear - Vn. rdes. revert Vn. rlazy. intros E. injection E as -> -> -> ->. auto. }
  destruct Uq as [U0 U1].
  assert (G : q_get_angle qn = q_get_angle q) by (unfold q_get_angle; now rewrite U0, U1).
  rewrite G in H. set (th := q_get_angle q) in *.
  pose proof (c29_angle_range q) as RG. fold th in RG.
  assert (SC : sin (th / 2) = v3_norm2 (Quat.q q) /\ cos (th / 2) = q0 q).
  { unfold th, q_get_angle. cbn [one add mul R_Num fatan2 R_Float].
    replace ((1 + 1) * Ratan2 (v3_norm2 (Quat.q q)) (q0 q) / 2)
      with (Ratan2 (v3_norm2 (Quat.q q)) (q0 q)) by field.
    destruct (Ratan2_unit (q0 q) (v3_norm2 (Quat.q q))) as [C S]; [ |split; assumption].
    rewrite v3_norm2_sq, <- qnormsq_dot. exact U. }
  destruct SC as [S C].
  cbn [fsin R_Float lit_2 div R_Num epsilon ltb R_POrd abs R_Signed] in H.
  pose proof (eps_pos K OK) as He.
  destruct (Rltb_spec r_eps (Rabs (sin (th / 2)))) as [L|L]; [ |discriminate]. injection H as <-.
  rewrite U1. assert (P : 0 < sin (th / 2)).
  { rewrite S in *. pose proof (v3_norm2_nonneg (Quat.q q)). rewrite Rabs_pos_eq in L by assumption. lra. }
  set (w := v3_div (Quat.q q) (sin (th / 2))).
  assert (Dw : v3_dot w w = 1).
  { unfold w. rewrite v3_div_scale, v3_dot_scale, <- v3_norm2_sq, <- S. field. lra. }
  assert (Nw : w <> v3_zeros).
  { intros E. apply (c18_dot_zero_iff D3 w) in E. change (v3_dot w w = 0) in E. lra. }
  unfold q_rotation. rewrite v3_normalize_eq by exact Nw. cbn [bind unwrap].
  cbn [sin_cos fsin fcos R_Float one add div R_Num]. replace (1 + 1) with 2 by ring.
  eexists. split; [reflexivity| ].
  assert (E : v3_scale (unit_of w) (sin (th / 2)) = Quat.q q).
  { unfold unit_of. rewrite Dw, sqrt_1, v3_scale_scale. unfold w. rewrite v3_div_scale, v3_scale_scale.
    replace (/ sin (th / 2) * (/ 1 * sin (th / 2))) with 1 by (field; lra). apply v3_scale_1. }
  rewrite E, C. unfold qval. cbn [q0 Quat.q]. reflexivity.
Qed.

End R.
