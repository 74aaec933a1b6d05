(** * Cases: further concrete cases meeting the hypotheses of the theorems

    The other cases are the Examples of the Proofs*.v files. Each case below
    applies the theorem it is named after. *)

From Coq Require Import List Arith Lia Bool Reals Lra ZArith.
From Verif Require Import Base Scalar Vec Mat2 Mat3 Mat4 Mat5 Mat6 Slices MatLoops MatOps Quat Transf
  DualQuat RingDet Spec Entries DetEntries InstZ InstR RFacts TrigFacts ExpSeries Display
  ProofsRing ProofsInverse ProofsLU ProofsNorm ProofsQuat ProofsRigid ProofsRot ProofsQuatR ProofsQuatFlag
  ProofsQuatExp ProofsDual ProofsExp ProofsScrew ProofsDisplay
  PropsInverse PropsLU PropsQuat PropsRigid PropsRot PropsQuatR PropsQuatFlag PropsQuatExp PropsDual PropsExp
  PropsScrew PropsDisplay PropsSlerp.
Local Open Scope R_scope.
#[local] Existing Instance f64_consts.
Notation OK := f64_consts_ok.

Lemma eps_tiny : 0 < r_eps < 1 / 1000000.
Proof. pose proof (eps_pos _ OK). pose proof (eps_small _ OK). lra. Qed.

(** ** matrices *)
Definition sing : M33 R := [| [| 1; 2; 3 |]; [| 4; 5; 6 |]; [| 7; 8; 9 |] |].
Definition unim : M22 R := [| [| 2; 1 |]; [| 1; 1 |] |].
Definition unim' : M22 R := [| [| 1; -1 |]; [| -1; 2 |] |].

Lemma unim_det : ldet 2 (mfun unim) = 1.
Proof. rlazy. ring. Qed.

Example C07_case_singular : d_inverse D3 sing = Ok None.
Proof. apply (C07_inverse_partial OK). rlazy. ring. Qed.
Example C07_case_inverse : d_inverse D2 unim = Ok (Some unim').
Proof.
  apply (C07_inverse_unique OK); [rlazy; rpairs; ring| ].
  change (dimn D2) with 2%nat. rewrite unim_det, Rabs_R1. pose proof eps_tiny. lra.
Qed.
Example C06_case : d_mul D2 unim unim' = d_identity D2 /\ d_mul D2 unim' unim = d_identity D2.
Proof. exact (C06_inverse_two_sided OK D2 unim unim' C07_case_inverse). Qed.

Example C11_case : exists m ix, d_lu D2 unim = Ok (m, 1, ix).
Proof.
  destruct (C11_lu_det_partial OK D2 unim) as (m & ix & E).
  - change (dimn D2) with 2%nat. rewrite unim_det. lra.
  - change (dimn D2) with 2%nat in E. rewrite unim_det in E. eauto.
Qed.
Example C11_case_singular : exists m det ix, d_lu D3 sing = Ok (m, det, ix) /\ det <> 0.
Proof.
  assert (D : ldet 3 (mfun sing) = 0) by (rlazy; ring).
  destruct (C11_lu_singular_refuted OK D3 sing D) as (m & det & ix & E & N).
  - exists 0%nat. split; [cbn; lia|rlazy; lra].
  - change (dimn D3) with 3%nat in N. rewrite D in N. eauto.
Qed.

(** ** rotations and quaternions *)
Definition qa : Quaternion R := q_new_from (3/5) (4/5) 0 0.
Definition qb : Quaternion R := q_new_from (1/2) (1/2) (1/2) (1/2).
Definition rt : M33 R := [| [| 0; 0; 1 |]; [| 1; 0; 0 |]; [| 0; 1; 0 |] |].
Definition ht : M44 R := [| [| 0; 0; 1; 5 |]; [| 1; 0; 0; 6 |]; [| 0; 1; 0; 7 |]; [| 0; 0; 0; 1 |] |].

Lemma qa_unit : unit_quat qa.
Proof. unfold unit_quat. rlazy. field. Qed.
Lemma qb_unit : unit_quat qb.
Proof. unfold unit_quat. rlazy. field. Qed.
Lemma rt_SO3 : SO3 rt.
Proof. split; [ |split]; rlazy; rpairs; ring. Qed.
Lemma ht_SE3 : SE3 ht.
Proof. split; [exact rt_SO3|repeat split; reflexivity]. Qed.

Example C25_case : is_rotation rt = true /\ is_rotation_h ht = true.
Proof. split; [apply C25_accepts_rotations_partial, rt_SO3|apply C25_accepts_rigid_partial, ht_SE3]. Qed.
Example C25_case_det : Rabs (ldet 3 (mfun rt) - 1) < 3 * r_eps.
Proof. apply (C25_accepted_det_partial OK), C25_case. Qed.

(** the half turn of [qb] sends the axes to one another *)
Example C27_case : q_to_rotation qb = rt /\ q_mul_v qb [| 1; 2; 3 |] = [| 3; 1; 2 |].
Proof.
  assert (E : q_to_rotation qb = rt) by (rlazy; rpairs; field). split; [exact E| ].
  rewrite <- (C27_to_rotation_action R_ring qb) by exact qb_unit. rewrite E. rlazy. rpairs; ring.
Qed.
Example C28_case : unit_quat (q_from_rotation rt) /\ q_to_rotation (q_from_rotation rt) = rt.
Proof. exact (C28_from_rotation rt rt_SO3). Qed.

Definition ax : V3 R := [| 0; 3; 4 |].
Lemma ax_nz : ax <> v3_zeros.
Proof. intros E. injection E. lra. Qed.
Lemma ax_norm : v3_norm2 ax = 5.
Proof.
  rewrite (ProofsNorm.c18_norm2_dot D3 ax : v3_norm2 ax = sqrt (v3_dot ax ax)).
  replace (v3_dot ax ax) with (5 * 5) by (rlazy; ring). apply sqrt_square. lra.
Qed.

Example C29_case : exists q, q_rotation 1 ax = Ok q /\ unit_quat q
  /\ q_to_rotation q = rodrigues [| 0; 3/5; 4/5 |] 1 /\ q_get_angle q = 1
  /\ q_get_axis q = Some [| 0; 3/5; 4/5 |].
Proof.
  destruct (C29_rotation 1 ax ax_nz) as (q & E & _ & U & R & _). exists q.
  assert (X : unit_of ax = [| 0; 3/5; 4/5 |]).
  { unfold unit_of. replace (v3_dot ax ax) with (5 * 5) by (rlazy; ring). rewrite sqrt_square by lra.
    rlazy. rpairs; field. }
  pose proof PI2_1 as P2. assert (T : 0 <= 1 <= 2 * PI) by lra.
  split; [exact E|split; [exact U|split; [rewrite R, X; reflexivity|split; [exact (C29_get_angle 1 ax q T E)| ]]]].
  rewrite (C29_get_axis OK 1 ax q T E), X. destruct Rlt_dec as [L|L]; [reflexivity|exfalso; apply L].
  pose proof eps_tiny. pose proof (SIN_bound 1).
  apply Rlt_le_trans with (1 / 1000000); [lra| ].
  destruct (pre_sin_bound (1 / 2) 0 ltac:(lra) ltac:(lra)) as [B _].
  unfold sin_approx, sin_term in B. simpl in B. lra.
Qed.
Example C29_case_norm_encoded : q_rotation 5 ax = Ok (q_rotation_norm_encoded ax).
Proof.
  rewrite <- ax_norm at 1. apply (C29_norm_encoded OK). rewrite ax_norm. pose proof eps_tiny. lra.
Qed.
Example C29_case_tiny : q_rotation_norm_encoded (v3_zeros : V3 R) = q_new 1 v3_zeros.
Proof.
  apply (C29_norm_encoded_tiny OK). replace (v3_norm2 v3_zeros) with 0; [apply eps_tiny| ].
  symmetry. apply v3_norm2_zero. reflexivity.
Qed.

Example C33_case : qval (q_exp (q_ln qb)) = qval qb /\ qval (q_mul (q_sqrt qb) (q_sqrt qb)) = qval qb.
Proof.
  assert (H : honest qb) by (intros F; discriminate F).
  assert (N : qval qb <> (0, 0, 0, 0)) by (intros E; apply (f_equal (fun z => fst (fst (fst z)))) in E; revert E; rlazy; lra).
  assert (S : sqrt (qnormsq qb) = 1) by (rewrite qb_unit; apply sqrt_1).
  assert (L : 1 / 2 <= v3_norm2 (Quat.q qb)).
  { rewrite (ProofsNorm.c18_norm2_dot D3 (Quat.q qb) : v3_norm2 (Quat.q qb) = sqrt (v3_dot (Quat.q qb) (Quat.q qb))).
    rewrite <- (sqrt_square (1 / 2)) by lra. apply sqrt_le_1_alt. rlazy. lra. }
  pose proof eps_tiny. split.
  - apply (C33_exp_ln_partial OK); [exact H|exact N|right; rewrite S; lra].
  - apply (C33_sqrt_partial OK); [exact H|exact N|right; rewrite S; lra].
Qed.

Definition da : DualQuaternion R := dq_new_from_array [| 3/5; 4/5; 0; 0; 5; 6; 7 |].
Lemma da_unit : unit_dq da.
Proof. split; [unfold unit_quat| ]; rlazy; field. Qed.

Example C35_case : unit_dq (dq_mul da da)
  /\ dqval (dq_mul da (dq_conj da)) = dqval dq_one.
Proof.
  split; [apply (C35_unit_mul R_ring); exact da_unit|apply (C35_unit_conj R_ring da da_unit)].
Qed.
Example C36_case : dq_to_homogeneous (dq_mul da da) = m44_mul (dq_to_homogeneous da) (dq_to_homogeneous da).
Proof. apply (C36_to_homogeneous_mul R_ring), da_unit. Qed.
Example C37_case : exists a, dq_new_from_homogeneous ht = Ok a /\ unit_dq a /\ dq_to_homogeneous a = ht.
Proof. destruct (C37_homogeneous_round_trip OK ht ht_SE3) as (a & E & U & _ & H). eauto. Qed.

Example C42_case : m44_mul ht (homogeneous_inverse ht) = m44_identity
  /\ d_inverse D4 ht = Ok (Some (homogeneous_inverse ht))
  /\ m44_mul_v ht (point [| 1; 2; 3 |]) = point [| 8; 7; 9 |].
Proof.
  split; [apply (C42_inverse R_ring ht ht_SE3)|split; [exact (C42_inverse_agrees OK ht ht_SE3)| ]].
  rewrite (C42_point R_ring) by exact ht_SE3. rlazy. rpairs; ring.
Qed.
Example C43_case : let A : M33 R := [| [| 0; -3; 2 |]; [| 3; 0; -1 |]; [| -2; 1; 0 |] |] in
  skew_to_vec A = [| 1; 2; 3 |] /\ skew_from_vec (skew_to_vec A) = A.
Proof.
  intros A. split; [reflexivity| ]. apply C43_skew_from_to.
  - intros i j Hi Hj. all_lt i Hi; all_lt j Hj; rlazy; ring.
  - intros i Hi. all_lt i Hi; reflexivity.
Qed.

(** the exponential of a twist about an axis through another point *)
Definition tw1 : M44 R := twist_to_se3 [| 0; 3; 4; 1; 2; 3 |].
Example C46_case : exists E, matrix_exponential6 tw1 = Ok E /\ is_mexp 4 (mfun tw1) (mfun E) /\ SE3 E.
Proof.
  apply (C46_exponential_partial OK); [apply (C43_twist_se3 R_ring)| ].
  unfold tw1. rewrite C43_twist_round_trip. change (tw_w [| 0; 3; 4; 1; 2; 3 |]) with ax.
  rewrite ax_norm. pose proof eps_tiny. lra.
Qed.
Example C44_case : exists E, matrix_exponential (skew_from_vec ax) = Ok E /\ is_mexp 3 (mfun (skew_from_vec ax)) (mfun E) /\ SO3 E.
Proof.
  apply (C44_exponential OK); [apply (C43_skew_antisymmetric R_ring)| ].
  rewrite C43_skew_round_trip, ax_norm. pose proof eps_tiny. lra.
Qed.

(** [rt] is the rotation by 2 pi / 3 about the diagonal *)
Lemma rt_angle : 1 <= rot_angle rt < PI.
Proof.
  assert (E : rot_angle rt = 2 * (PI / 3)).
  { unfold rot_angle. replace ((mfun rt 0 0 + mfun rt 1 1 + mfun rt 2 2 - 1) / 2) with (cos (2 * (PI / 3)))
      by (rewrite cos_2PI3; rlazy; field). apply acos_cos. pose proof PI_RGT_0. lra. }
  rewrite E. pose proof PI2_1. lra.
Qed.
Example C45_case : matrix_exponential (matrix_log rt) = Ok rt /\ is_mexp 3 (mfun (matrix_log rt)) (mfun rt).
Proof.
  pose proof rt_angle as A. pose proof eps_tiny as E.
  assert (P : rot_angle rt = PI -> r_eps <= 1 + mfun rt 2 2 \/ r_eps <= 1 + mfun rt 1 1) by lra.
  split; [apply (C45_exp_log_partial OK rt rt_SO3); [right; lra|exact P]|exact (C45_log_series OK rt rt_SO3 P)].
Qed.
Example C46_case_log : matrix_exponential6 (matrix_log6 ht) = Ok ht
  /\ is_mexp 4 (mfun (matrix_log6 ht)) (mfun ht).
Proof.
  pose proof rt_angle as A. pose proof eps_tiny as E. change rt with (rot_of ht) in A.
  assert (P : rot_angle (rot_of ht) = PI -> r_eps <= 1 + mfun ht 2 2 \/ r_eps <= 1 + mfun ht 1 1) by lra.
  split; [apply (C46_exp_log_partial OK ht ht_SE3); [lra|exact P]|apply (C46_log_series OK ht ht_SE3 P)].
Qed.
Definition ax1 : V3 R := [| 0; 3/5; 4/5 |].
Lemma ax1_norm : v3_norm2 ax1 = 1.
Proof.
  rewrite (ProofsNorm.c18_norm2_dot D3 ax1 : v3_norm2 ax1 = sqrt (v3_dot ax1 ax1)).
  replace (v3_dot ax1 ax1) with 1 by (rlazy; field). apply sqrt_1.
Qed.
Example C46_case_log_exp : exists E, matrix_exponential6 (twist_to_se3 [| 0; 3/5; 4/5; 1; 2; 3 |]) = Ok E
  /\ matrix_log6 E = twist_to_se3 [| 0; 3/5; 4/5; 1; 2; 3 |].
Proof.
  pose proof eps_tiny. pose proof PI2_1.
  destruct (C46_total OK (twist_to_se3 [| 0; 3/5; 4/5; 1; 2; 3 |])) as (E & X & _). exists E. split; [exact X| ].
  apply (C46_log_exp OK _ _ (C43_twist_se3 R_ring _)); [ |exact X].
  rewrite C43_twist_round_trip. change (tw_w [| 0; 3/5; 4/5; 1; 2; 3 |]) with ax1. rewrite ax1_norm. lra.
Qed.
Example C47_case : exists X, adjoint ht = Ok X /\
  twist_to_se3 (m66_mul_v X [| 1; 2; 3; 4; 5; 6 |])
  = m44_mul (m44_mul ht (twist_to_se3 [| 1; 2; 3; 4; 5; 6 |])) (homogeneous_inverse ht).
Proof. exact (C47_adjoint_conjugation R_ring ht _ ht_SE3). Qed.

Example C61_case : dq_to_homogeneous da = homogeneous_from_quaternion qa [| 5; 6; 7 |].
Proof. apply C61_array_motion. field. Qed.
Example C63_case_moved : exists X, adjoint ht = Ok X /\
  m66_mul_v X (screw_to_axis [| 1; 0; 0 |] [| 0; 0; 1 |] 2) = screw_to_axis [| 5; 7; 7 |] [| 1; 0; 0 |] 2.
Proof.
  destruct (C63_axis_moved R_ring ht [| 1; 0; 0 |] [| 0; 0; 1 |] 2 ht_SE3) as (X & E & M).
  exists X. split; [exact E| ]. rewrite M. f_equal; rlazy; rpairs; ring.
Qed.
Example C65_case_inverse : d_inverse D3 rt = Ok (Some (rotation_inverse rt)).
Proof. apply (C65_rotation_inverse OK rt rt_SO3). Qed.
