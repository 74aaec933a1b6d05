(** * CasesB: concrete cases for theorems over the reals that [Cases] does not apply *)

From Coq Require Import List Arith Lia Bool Reals Lra ZArith.
From Verif Require Import Base Scalar Vec Mat2 Mat3 Mat4 Mat5 Mat6 Slices MatLoops MatOps Quat Transf
  DualQuat RingDet Spec Entries DetEntries InstZ InstR RFacts LUFacts QRFacts TrigFacts ExpSeries
  ProofsRing ProofsInverse ProofsLU ProofsNorm ProofsQuat ProofsRigid ProofsRot ProofsQuatR ProofsQuatFlag
  ProofsQuatExp ProofsDual ProofsExp ProofsScrew ProofsSlerp ProofsEuler ProofsQR ProofsBasic
  PropsInverse PropsLU PropsNorm PropsQuat PropsRigid PropsRot PropsQuatR PropsQuatFlag PropsQuatExp PropsDual PropsExp
  PropsScrew PropsSlerp PropsEuler PropsQR PropsBasic PropsRing PropsFlags Cases.
Local Open Scope R_scope.
#[local] Existing Instance f64_consts.
Notation OK := f64_consts_ok.

(** ** matrices *)
Example C10_case_unim : exists m det ix, d_lu D2 unim = Ok (m, det, ix)
  /\ forall i j, (i < 2)%nat -> (j < 2)%nat ->
     mmul 2 (Lpart (mfun m)) (Upart (mfun m)) i j = exchange 2 (pos ix) (mfun unim) i j.
Proof.
  destruct (C10_lu_reconstructs OK D2 unim) as (m & det & ix & E & _ & _ & L).
  - change (dimn D2) with 2%nat. rewrite unim_det. lra.
  - exists m, det, ix. split; [exact E|exact L].
Qed.
Example C10_case_sing : exists m det ix e, d_lu D3 sing = Ok (m, det, ix) /\ (forall k, e k = 0 \/ e k = r_1em40)
  /\ forall i j, (i < 3)%nat -> (j < 3)%nat ->
     mmul 3 (Lpart (mfun m)) (Upart (mfun m)) i j = exchange 3 (pos ix) (mfun sing) i j + (if Nat.eqb i j then e i else 0).
Proof.
  destruct (C10_lu_perturbed OK D3 sing) as (m & det & ix & e & E & _ & K & L).
  - exists 1%nat. split; [cbn; lia|rlazy; lra].
  - exists m, det, ix, e. split; [exact E|split; [exact K|exact L]].
Qed.
(** a row of zeros, then anything *)
Definition topless : M33 R := [| [| 0; 0; 0 |]; [| 4; 5; 6 |]; [| 7; 8; 10 |] |].
Example C11_case_panic : d_lu D3 topless = Panic.
Proof. apply (C11_lu_panic_iff OK). intros j Hj. change (dimn D3) with 3%nat in Hj. all_lt j Hj; reflexivity. Qed.
Example C12_case_unim : exists q r, d_qr D2 unim = Ok (Some (q, r)) /\ d_mul D2 q r = unim
  /\ d_mul D2 (d_transpose D2 q) q = d_identity D2 /\ mfun r 1 0 = 0 /\ 0 < mfun r 0 0.
Proof.
  destruct (C12_qr OK D2 unim) as (q & r & E & M & O & _ & Z & P).
  - change (dimn D2) with 2%nat. rewrite unim_det, Rabs_R1. pose proof eps_tiny. lra.
  - exists q, r. split; [exact E|split; [exact M|split; [exact O|split; [apply Z; cbn; lia|apply P; cbn; lia]]]].
Qed.
Example C19_case_ax : exists u, d_vnormalize D3 ax = Ok (Some u) /\ d_vnorm2 D3 u = 1 /\ d_vscale D3 u 5 = ax.
Proof.
  destruct (C19_normalize_ok D3 ax ax_nz) as (u & E & N & S). exists u.
  change (d_vnorm2 D3 ax) with (v3_norm2 ax) in S. rewrite ax_norm in S. auto.
Qed.
Example C57_case_div : d_scale D2 (d_div D2 unim 3) 3 = unim /\ d_div D2 unim 3 = d_scale D2 unim (/ 3).
Proof. destruct (C57_div_scale D2 unim 3 ltac:(lra)) as (A & _ & B). auto. Qed.

(** ** quaternions *)
Lemma qa_honest : honest qa. Proof. intros F; discriminate F. Qed.
Lemma qb_honest : honest qb. Proof. intros F; discriminate F. Qed.
Definition q2 : Quaternion R := q_new_from 6 8 0 0.
Lemma q2_honest : honest q2. Proof. intros F; discriminate F. Qed.
Lemma q2_normsq : qnormsq q2 = 10 * 10. Proof. rlazy. ring. Qed.
Lemma q2_sqrt : sqrt (qnormsq q2) = 10. Proof. rewrite q2_normsq. apply sqrt_square. lra. Qed.
Lemma q2_some : exists p, q_normalize q2 = Some p.
Proof.
  destruct (q_normalize q2) as [p| ] eqn:E; [eauto|exfalso].
  apply (C32_normalize_none_iff OK) in E. destruct E as [_ E]. rewrite q2_sqrt in E. pose proof eps_tiny. lra.
Qed.

Example C27_case_compose : q_mul_v (q_mul qa qb) [| 1; 2; 3 |] = q_mul_v qa (q_mul_v qb [| 1; 2; 3 |])
  /\ q_mul_v qa [| 1; 2; 3 |] = sandwich qa [| 1; 2; 3 |] /\ SO3 (q_to_rotation qa)
  /\ v3_dot (q_mul_v qa [| 1; 2; 3 |]) (q_mul_v qa [| 4; 5; 6 |]) = 32
  /\ q_mul_v qa (v3_cross [| 1; 2; 3 |] [| 4; 5; 6 |]) = v3_cross (q_mul_v qa [| 1; 2; 3 |]) (q_mul_v qa [| 4; 5; 6 |])
  /\ q_mul_v (q_conj qa) (q_mul_v qa [| 1; 2; 3 |]) = [| 1; 2; 3 |].
Proof.
  pose proof qa_unit as A. pose proof qb_unit as B.
  split; [exact (C27_action_compose R_ring qa qb _ A B)|split; [exact (C27_action_sandwich R_ring qa _ A)| ]].
  split; [exact (C27_to_rotation_SO3 R_ring qa A)|split; [rewrite (C27_action_dot R_ring qa _ _ A); rlazy; ring| ]].
  split; [exact (C27_action_cross R_ring qa _ _ A)|exact (C27_action_conj R_ring qa _ A)].
Qed.
Example C28_case_back : (exists q, unit_quat q /\ q_to_rotation q = rt)
  /\ let p := q_from_rotation (q_to_rotation qa) in qval p = qval qa \/ qval p = qval (q_neg qa).
Proof. split; [exact (C28_to_rotation_surjective rt rt_SO3)|exact (C28_from_to_rotation qa qa_unit)]. Qed.
Example C29_case_rodrigues : m33_mul_v (rodrigues ax1 2) ax1 = ax1
  /\ m33_mul_v (rodrigues ax1 2) [| 1; 0; 0 |]
     = v3_add (v3_scale [| 1; 0; 0 |] (cos 2)) (v3_scale (v3_cross ax1 [| 1; 0; 0 |]) (sin 2)).
Proof.
  destruct (C29_rodrigues_meaning ax1 2) as [A B]; [rlazy; field|split; [exact A|apply B; rlazy; ring]].
Qed.
Example C30_case_zxz : euler_to_rotation 1 2 3 (Some ZXZ) = euler_product (Some ZXZ) 1 2 3.
Proof. apply C30_euler_sequences_partial. discriminate. Qed.
Example C32_case_normalize : exists p, q_normalize q2 = Some p /\ unit_quat p /\ qval (q_scale p 10) = qval q2.
Proof.
  destruct q2_some as [p E]. destruct (C32_normalize_some OK q2 p q2_honest E) as (_ & U & _ & S).
  rewrite q2_sqrt in S. eauto.
Qed.
Example C34_case_slerp : unit_quat (q_slerp qa qb (1 / 3)) /\ qval (q_slerp qa qb 0) = qval qa
  /\ q_to_rotation (q_slerp qa qb 1) = q_to_rotation qb
  /\ qinner qa (q_slerp qa qb (1 / 3)) = cos (1 / 3 * acos (7 / 10)).
Proof.
  assert (I : qinner qa qb = 7 / 10) by (rlazy; field).
  assert (S : r_1em3 <= sqrt (1 - qinner qa qb * qinner qa qb)).
  { apply Rle_trans with (1 / 2); [pose proof (em3_small _ OK); lra| ].
    rewrite <- (sqrt_square (1 / 2)) by lra. apply sqrt_le_1_alt. rewrite I. lra. }
  assert (L : slerp_ok qa qb) by (right; exact S).
  split; [exact (C34_unit_partial OK qa qb _ qa_unit qb_unit L)| ].
  destruct (C34_endpoints_partial OK qa qb qa_unit qb_unit L) as (A & _ & B).
  split; [exact A|split; [exact B| ]].
  destruct (C34_constant_speed_partial OK qa qb (1 / 3) qa_unit qb_unit) as [C _].
  - rewrite I, Rabs_right; lra.
  - exact S.
  - rewrite C, I, Rabs_right by lra. reflexivity.
Qed.
Example C32_case_inverse : exists p, q_inverse q2 = Some p /\ qval (q_mul q2 p) = (1, 0, 0, 0) /\ qval (q_mul p q2) = (1, 0, 0, 0)
  /\ qval p = qval (q_new_from (6 / 100) (- 8 / 100) 0 0).
Proof.
  destruct (q_inverse q2) as [p| ] eqn:E.
  - exists p. destruct (C32_inverse_two_sided OK q2 p q2_honest E) as [A B].
    split; [reflexivity|split; [exact A|split; [exact B| ]]]. symmetry.
    apply (C32_inverse_unique OK q2 p _ q2_honest E). rlazy. rpairs; field.
  - exfalso. apply (C32_inverse_none_iff OK) in E. destruct E as [_ E]. rewrite q2_normsq in E. pose proof eps_tiny. lra.
Qed.
Lemma qb_imag : v3_norm2 (Quat.q qb) = sqrt 3 / 2.
Proof.
  rewrite (ProofsNorm.c18_norm2_dot D3 (Quat.q qb) : v3_norm2 (Quat.q qb) = sqrt (v3_dot (Quat.q qb) (Quat.q qb))).
  replace (v3_dot (Quat.q qb) (Quat.q qb)) with (3 / (2 * 2)) by (rlazy; field).
  rewrite sqrt_div_alt by lra. rewrite sqrt_square by lra. reflexivity.
Qed.
Lemma sqrt3_size : 17 / 10 < sqrt 3 < 18 / 10.
Proof.
  split; [rewrite <- (sqrt_square (17 / 10)) by lra|rewrite <- (sqrt_square (18 / 10)) by lra]; apply sqrt_lt_1_alt; lra.
Qed.
Lemma qb_sqrt : sqrt (qnormsq qb) = 1.
Proof. rewrite qb_unit. apply sqrt_1. Qed.
Lemma qb_clear : clear_of_real_axis qb.
Proof.
  right. rewrite qb_sqrt, qb_imag. pose proof sqrt3_size. pose proof eps_tiny. lra.
Qed.
Lemma qb_nz : qval qb <> (0, 0, 0, 0).
Proof. intros E. apply (f_equal (fun z => fst (fst (fst z)))) in E. revert E. rlazy. lra. Qed.
(** the cube of the turn by a third of a circle *)
Example C33_case_cube : qval (q_pow qb (q_new_real (INR 3))) = (- 1, 0, 0, 0).
Proof.
  rewrite (C33_pow_nat_partial OK qb 3 qb_honest qb_nz qb_clear). rlazy. rpairs; field.
Qed.
Example C33_case_pow_add : qval (q_mul (q_pow qb (q_new_real (1 / 2))) (q_pow qb (q_new_real (3 / 2)))) = qval (q_pow qb (q_new_real (1 / 2 + 3 / 2))).
Proof.
  pose proof sqrt3_size. pose proof eps_tiny. apply (C33_pow_add_partial OK qb _ _ qb_honest qb_nz qb_clear).
  intros x [ ->|[ ->| ->]]; right; left; rewrite qb_sqrt, qb_imag, Rabs_right; lra.
Qed.
Definition qp : Quaternion R := q_new_imag ax1.
Example C33_case_pure : unit_quat (q_exp qp) /\ 1 <= qnormsq (q_exp qp) <= 1 + r_eps * r_eps.
Proof.
  pose proof eps_tiny. split; [apply (C33_exp_pure_unit_partial OK)|apply (C33_exp_pure_unit_approx OK)]; [reflexivity| |reflexivity].
  right. change (Quat.q qp) with ax1. rewrite ax1_norm. lra.
Qed.
Lemma ax1_unit : unit3 ax1.
Proof. unfold unit3. rlazy. field. Qed.
Example C33_case_polar : qval (q_exp (q_new 2 ax)) = qpolar (exp 2) 5 ax1.
Proof.
  apply (C33_exp_polar OK); [exact ax1_unit|right; rewrite Rabs_right; [pose proof eps_tiny; lra|lra]|rlazy; rpairs; field].
Qed.
Example C33_case_ln_exp : qval (q_ln (q_exp qp)) = qval qp.
Proof.
  pose proof eps_tiny. pose proof PI2_1.
  apply (C33_ln_exp_partial OK); change (Quat.q qp) with ax1; rewrite ax1_norm; [lra|right; split; [lra| ]].
  destruct (pre_sin_bound 1 0 ltac:(lra) ltac:(lra)) as [B _]. unfold sin_approx, sin_term in B. simpl in B. lra.
Qed.
Example C33_case_exp_ln : q0 (q_exp (q_ln q2)) = 6.
Proof.
  destruct (C33_exp_ln_approx OK q2 q2_honest) as [A _]; [ |rewrite A; reflexivity].
  intros E. apply (f_equal (fun z => fst (fst (fst z)))) in E. revert E. rlazy. lra.
Qed.
Example C55_case_sin : exists s, q_sin (q_new 1 ax) = Ok s
  /\ qval (q_add (q_mul s s) (q_mul (q_cos (q_new 1 ax)) (q_cos (q_new 1 ax)))) = (1, 0, 0, 0).
Proof.
  pose proof eps_tiny.
  destruct (C55_sin_cos OK (q_new 1 ax) 1 5 ax1) as [(s & E & _) _];
    [exact ax1_unit|lra|right; lra|right; rewrite Rabs_R1; lra|rlazy; rpairs; field| ].
  exists s. split; [exact E|apply (C55_pythagoras OK (q_new 1 ax) s)]; [right; rlazy; lra|right; change (q0 (q_new 1 ax)) with 1; rewrite Rabs_R1; lra|exact E].
Qed.

(** ** dual quaternions: a turn with a shift along and across its axis *)
Lemma da_honest : dq_honest da. Proof. intros _. exact da_unit. Qed.
Example C36_case_point : m44_mul_v (dq_to_homogeneous da) (point [| 1; 2; 3 |])
  = point (v3_add (q_mul_v (dq_real da) [| 1; 2; 3 |]) (dq_get_translation da)).
Proof. apply (C36_to_homogeneous_point R_ring), da_unit. Qed.
Example C37_case_rot_trans : exists p a, q_normalize q2 = Some p /\ dq_new_from_rot_trans q2 ax = Ok a /\ unit_dq a
  /\ dq_get_translation a = ax /\ dq_to_homogeneous a = homogeneous_from_rotation (q_to_rotation p) ax.
Proof.
  destruct q2_some as [p E]. destruct (C37_rot_trans OK q2 p ax q2_honest E) as (a & X & U & _ & _ & T & _ & H).
  exists p, a. auto.
Qed.
Example C37_case_dual : exists b, dq_new_from_homogeneous (dq_to_homogeneous da) = Ok b
  /\ (dqval b = dqval da \/ dqval b = dqval (dq_neg da)).
Proof. exact (C37_dual_round_trip OK da da_unit). Qed.
Lemma da_real : dq_real da = mkQ (3/5) [| 4/5; 0; 0 |] (normalized (dq_real da)).
Proof. rlazy. repeat f_equal; field. Qed.
Lemma da_nz : Quat.q (dq_real da) <> v3_zeros.
Proof. rewrite da_real. intros E. injection E. lra. Qed.
Lemma da_regular : screw_regular da.
Proof.
  split; [exact da_nz| ]. rewrite da_real. cbn [q0].
  pose proof eps_tiny. apply Rle_trans with (1 / 2); [lra| ].
  assert (P : PI / 6 <= acos (3 / 5)).
  { apply Rnot_lt_le. intros L. pose proof (acos_bound (3 / 5)). pose proof PI_RGT_0.
    pose proof (cos_decreasing_1 (acos (3 / 5)) (PI / 6) ltac:(lra) ltac:(lra) ltac:(lra) ltac:(lra) L) as C.
    rewrite cos_acos, cos_PI6 in C by lra. pose proof sqrt3_size. lra. }
  pose proof PI2_1. lra.
Qed.

Example C38_case_inverse : exists b, dq_inverse da = Ok b /\ dqval (dq_mul da b) = dqval dq_one /\ dqval (dq_mul b da) = dqval dq_one.
Proof.
  destruct (dq_inverse da) as [b| ] eqn:E.
  - exists b. split; [reflexivity|apply (C38_inverse_two_sided_partial OK da b da_honest)]; [ |exact E].
    intros _. exact (proj1 da_unit).
  - exfalso. apply (C38_inverse_panic_iff OK) in E. destruct E as (_ & _ & E). rewrite (proj1 da_unit) in E.
    change (1 < r_eps) in E. pose proof eps_tiny. lra.
Qed.
Lemma da_angle : r_eps <= q_get_angle (dq_real da).
Proof.
  destruct (cot_half (dq_real da) (proj1 da_unit) da_nz) as (_ & _ & E). rewrite E. exact (proj2 da_regular).
Qed.
Example C39_case_round_trip : let '(l, m, theta, d) := dq_get_screw_parameters da in
  dqval (dq_new_from_screw_parameters l m theta d) = dqval da /\ unit3 l /\ v3_dot l m = 0.
Proof.
  pose proof (C39_screw_round_trip OK da da_unit da_nz da_angle) as T.
  destruct (dq_get_screw_parameters da) as [[[l m] th] d]. destruct T as (A & B & C & _). auto.
Qed.
Example C39_case_pow : dqval (dq_pow da 1) = dqval da /\ dqval (dq_pow da (INR 2)) = dqval (dq_mul da da)
  /\ dqval (dq_mul (dq_pow da (1 / 3)) (dq_pow da (2 / 3))) = dqval (dq_pow da (1 / 3 + 2 / 3)).
Proof.
  destruct (C39_pow_partial OK da da_unit da_regular) as (_ & A & B & _).
  split; [exact A|split; [ |apply B]]. rewrite (C39_pow_nat_partial OK da 2 da_unit da_regular).
  apply (ProofsDual.dq_mul_val); [ |reflexivity]. rlazy. rpairs; field.
Qed.
Definition mo : V3 R := [| 2; 4; -3 |].
Example C39_case_parameters : unit_dq (dq_new_from_screw_parameters ax1 mo 1 7)
  /\ dq_get_screw_parameters (dq_new_from_screw_parameters ax1 mo 1 7) = (ax1, mo, 1, 7).
Proof.
  apply (C39_screw_parameters OK); [exact ax1_unit|rlazy; field|pose proof eps_tiny; pose proof PI2_1; lra].
Qed.
Example C40_case : (exists r, dq_screw_lerp dq_one da 1 = Ok r /\ dqval r = dqval da)
  /\ (exists r, dq_screw_lerp dq_one da 0 = Ok r /\ dqval r = dqval dq_one)
  /\ forall tau, exists r, dq_screw_lerp dq_one da tau = Ok r /\ unit_dq r.
Proof.
  assert (O : unit_dq (dq_one : DualQuaternion R)) by (split; [unfold unit_quat| ]; rlazy; ring).
  assert (P : 0 <= q0 (q_mul (dq_real (dq_one : DualQuaternion R)) (dq_real da))) by (rlazy; lra).
  assert (L : lerp_start dq_one da = dq_one) by (unfold lerp_start; destruct Rlt_dec; [lra|reflexivity]).
  assert (G : screw_regular (dq_mul (dq_conj (lerp_start dq_one da)) da)).
  { rewrite L. destruct da_regular as [A B]. unfold screw_regular.
    replace (Quat.q (dq_real (dq_mul (dq_conj dq_one) da))) with (Quat.q (dq_real da)) by (rlazy; rpairs; field).
    replace (q0 (dq_real (dq_mul (dq_conj dq_one) da))) with (q0 (dq_real da)) by (rlazy; field). auto. }
  destruct (C40_endpoints_partial OK dq_one da O da_unit G) as [E1 (r & E0 & V & W & _)].
  split; [exact E1|split; [exists r; auto| ]].
  destruct (C40_screw_motion_partial OK dq_one da O da_unit G) as (l & m & th & d & _ & _ & _ & K).
  intros tau. destruct (K tau) as (r' & X & U & _). eauto.
Qed.
(** ** rotations, screws and Euler angles *)
Example C31_case_rt : forall i j, (i < 3)%nat -> (j < 3)%nat -> Rabs (mfun (rebuilt rt) i j - mfun rt i j) <= 8 * r_eps.
Proof. exact (C31_approx OK rt rt_SO3). Qed.
Example C44_case_axis : matrix_exponential (skew_from_vec (v3_scale ax1 2)) = Ok (rotation_from_axis_angle ax1 2)
  /\ rotation_from_axis_angle ax1 2 = rodrigues ax1 2.
Proof.
  split; [apply (C44_axis_angle OK ax1 2 ax1_unit); rewrite Rabs_right; [pose proof eps_tiny; lra|lra]
         |apply (C44_axis_angle_rodrigues ax1 2 ax1_unit)].
Qed.
Example C45_case_log_exp : exists E, matrix_exponential (skew_from_vec ax1) = Ok E /\ matrix_log E = skew_from_vec ax1.
Proof.
  pose proof eps_tiny. pose proof PI2_1.
  assert (S : skew3 (skew_from_vec ax1)) by apply (C43_skew_antisymmetric R_ring).
  assert (N : v3_norm2 (skew_to_vec (skew_from_vec ax1)) = 1) by (rewrite C43_skew_round_trip; exact ax1_norm).
  destruct (C44_exponential OK (skew_from_vec ax1)) as (E & X & _); [exact S|rewrite N; lra| ].
  exists E. split; [exact X|apply (C45_log_exp OK _ E S); [rewrite N; lra|exact X]].
Qed.
Example C42_case_transform : m44_mul_v ht (point (homogeneous_inverse_transform ht [| 1; 2; 3 |])) = point [| 1; 2; 3 |]
  /\ SE3 (m44_mul ht ht) /\ SE3 (homogeneous_from_quaternion qa [| 5; 6; 7 |])
  /\ homogeneous_from_rotation (fst (get_parts_raw ht)) (snd (get_parts_raw ht)) = ht.
Proof.
  split; [apply (C42_inverse_transform ht _ ht_SE3)|split; [exact (C42_SE3_mul R_ring ht ht ht_SE3 ht_SE3)| ]].
  split; [apply (C42_from_quaternion qa _ qa_unit)|apply (C42_parts_SE3 ht ht_SE3)].
Qed.
Example C43_case_se3 : twist_to_se3 (se3_to_twist (twist_to_se3 [| 1; 2; 3; 4; 5; 6 |] : M44 R)) = twist_to_se3 [| 1; 2; 3; 4; 5; 6 |].
Proof. apply (C43_se3_round_trip _), (C43_twist_se3 R_ring). Qed.
Example C47_case_mul : exists X Z, adjoint ht = Ok X /\ adjoint (m44_mul ht ht) = Ok Z /\ Z = m66_mul X X.
Proof.
  destruct (C47_adjoint_mul R_ring ht ht ht_SE3 ht_SE3) as (X & Y & Z & A & B & C & D).
  exists X, Z. split; [exact A|split; [exact C| ]]. rewrite D. f_equal. congruence.
Qed.
Example C48_case_eigen : exists l, m22_real_eigenvals unim = Some l /\ vfun l 0 + vfun l 1 = 3 /\ vfun l 0 * vfun l 1 = 1.
Proof.
  destruct (m22_real_eigenvals unim) as [l| ] eqn:E.
  - exists l. destruct (C48_eigenvalues_vieta unim l E) as (A & B & _). split; [reflexivity| ].
    rewrite A, B. split; rlazy; ring.
  - exfalso. pose proof (C48_eigenvalues unim) as T. rewrite E in T. apply (T ((3 + sqrt 5) / 2)).
    pose proof (sqrt_sqrt 5 ltac:(lra)) as S. rlazy. lra.
Qed.
Example C51_case_distance : distance_to_manifold (m33_neg rt) = infinity
  /\ distance_to_manifold (m33_scale rt 2) = m33_norm2 (m33_sub (m33_mul (m33_scale rt 2) (m33_transpose (m33_scale rt 2))) m33_identity).
Proof.
  split; [apply (C51_distance_infinite)|apply (C51_distance_value)]; rlazy; lra.
Qed.
Example C53_case_derivative : forall q0 : Quaternion R, exists tr : R -> Quaternion R,
  (forall s, q_rotation (5 * s) ax = Ok (tr s))
  /\ forall k t, derivable_pt_lim (fun s => qcomp k (q_mul (tr s) q0)) t (qcomp k (q_derivative (q_mul (tr t) q0) ax)).
Proof.
  intros q0.
  assert (X : forall s, exists p, q_rotation (5 * s) ax = Ok p) by (intros s; destruct (C29_rotation (5 * s) ax ax_nz) as (p & E & _); eauto).
  exists (fun s => match q_rotation (5 * s) ax with Ok p => p | Panic => q0 end).
  assert (Y : forall s, q_rotation (5 * s) ax = Ok (match q_rotation (5 * s) ax with Ok p => p | Panic => q0 end))
    by (intros s; destruct (X s) as [p ->]; reflexivity).
  split; [exact Y|apply (C53_derivative ax q0 _ ax_nz)]. rewrite ax_norm. exact Y.
Qed.
Definition qe : Quaternion R := q_new_from (3/5) 0 0 (4/5).
Example C62_case_round_trip : let '(yaw, pitch, roll) := q_to_euler_angles qe in
  q_to_rotation (q_from_euler_angles yaw pitch roll) = q_to_rotation qe.
Proof.
  destruct C62_case as [U G]. pose proof (C62_to_euler_round_trip OK qe U G) as T.
  destruct (q_to_euler_angles qe) as [[y p] r]. apply T.
Qed.
Example C62_case_parts : let '(q, p) := get_parts (homogeneous_from_quaternion qe ax) in
  unit_quat q /\ homogeneous_from_quaternion q p = homogeneous_from_quaternion qe ax.
Proof.
  destruct C62_case as [U G]. pose proof (C62_get_parts OK (homogeneous_from_quaternion qe ax)) as T.
  destruct (get_parts _) as [q p]. destruct T as (A & _ & B); [apply (C42_from_quaternion qe ax U)|exact G|auto].
Qed.
Example C63_case_screw : exists E, matrix_exponential6 (twist_to_se3 (v6_scale (screw_to_axis [| 1; 2; 3 |] ax1 4) 2)) = Ok E
  /\ m44_mul_v E (point [| 1; 2; 3 |]) = point (v3_add (v3_add [| 1; 2; 3 |] (m33_mul_v (rodrigues ax1 2) (v3_sub [| 1; 2; 3 |] [| 1; 2; 3 |]))) (v3_scale ax1 (4 * 2))).
Proof.
  destruct (C63_screw_motion OK [| 1; 2; 3 |] ax1 4 2 ax1_unit) as (E & X & P); [rewrite Rabs_right; [pose proof eps_tiny; lra|lra]| ].
  exists E. split; [exact X|apply P].
Qed.
Example C64_case_axis : exists n, axis_angle ax = Ok (n, 5) /\ unit3 n /\ v3_scale n 5 = ax.
Proof. destruct (C64_axis_angle ax ax_nz) as (n & E & U & S). rewrite ax_norm in E, S. eauto. Qed.
Example C64_case_six : let '(a, t) := axis_angle6 [| 0; 3; 4; 1; 2; 3 |] in t = 5 /\ v6_scale a t = [| 0; 3; 4; 1; 2; 3 |].
Proof.
  pose proof (C64_axis_angle6_rotation OK [| 0; 3; 4; 1; 2; 3 |]) as T. change (tw_w [| 0; 3; 4; 1; 2; 3 |]) with ax in T.
  rewrite ax_norm in T. destruct (axis_angle6 _) as [a t]. destruct T as (A & B & _); [pose proof eps_tiny; lra|auto].
Qed.

Lemma ax_unit_of : unit_of ax = ax1.
Proof.
  unfold unit_of. replace (v3_dot ax ax) with (5 * 5) by (rlazy; ring). rewrite sqrt_square by lra.
  rlazy. rpairs; field.
Qed.
Lemma half_sin : r_eps < sin (1 / 2).
Proof.
  pose proof eps_tiny. destruct (pre_sin_bound (1 / 2) 0 ltac:(lra) ltac:(lra)) as [B _].
  unfold sin_approx, sin_term in B. simpl in B. lra.
Qed.
(** the logarithm of a turn by one radian followed by a shift *)
Example C56_case : exists a b, dq_to_homogeneous a = homogeneous_from_rotation (rodrigues ax1 1) [| 1; 2; 3 |]
  /\ dq_log a = Ok (Some b) /\ qval (dq_real b) = (0, 0, 3 / 10, 4 / 10) /\ Quat.q (dq_dual b) = [| 1 / 2; 1; 3 / 2 |].
Proof.
  destruct (C29_rotation 1 ax ax_nz) as (q & E & N & U & R & _).
  pose proof PI2_1 as P2. assert (T : 0 <= 1 <= 2 * PI) by lra.
  pose proof (C29_get_angle 1 ax q T E) as A. pose proof (C29_get_axis OK 1 ax q T E) as X.
  pose proof half_sin as HS. assert (S0 : 0 < sin (1 / 2)) by (pose proof eps_tiny; lra).
  destruct (Rlt_dec _ _) as [L|L] in X; [ |exfalso; apply L; rewrite ?Rabs_right by lra; exact HS].
  assert (H : honest q) by (intros _; exact U).
  assert (NZ : q_normalize q = Some q) by apply (C75_quat_trusted q N).
  destruct (C37_rot_trans OK q q [| 1; 2; 3 |] H NZ) as (a & Ea & _ & Fa & Ra & Ta & _ & Ha).
  exists a. destruct (C56_log a) as (L0 & L1 & L2).
  destruct (dq_log a) as [[b| ]| ] eqn:Lg.
  - destruct (L2 b eq_refl) as (_ & u & Eu & V & W & _). exists b.
    rewrite Ra, X in Eu. injection Eu as Eu. rewrite <- Eu, ax_unit_of, Ra, A in V.
    split; [rewrite Ha, R, ax_unit_of; reflexivity|split; [reflexivity|split]].
    + rewrite V. rlazy. rpairs; field.
    + rewrite Ta in W. clear - W. destruct (Quat.q (dq_dual b)) as (x & y & z & []).
      apply (f_equal (fun v => (vfun v 0, vfun v 1, vfun v 2))) in W. revert W. rlazy. intros W. injection W. intros. rpairs; lra.
  - exfalso. destruct L0 as [L0 _]. rewrite L0 in Fa by reflexivity. discriminate.
  - exfalso. destruct L1 as [L1 _]. destruct (L1 eq_refl) as [_ Z]. rewrite Ra, X in Z. discriminate.
Qed.
Example C52_case : m33_mul (ksi (PI / 2) 1 2) (ksi (PI / 2) 3 4) = ksi PI (- 3) 5.
Proof.
  rewrite C52_ksi_compose. f_equal; [field| | ]; rlazy; rewrite ?cos_PI2, ?sin_PI2; ring.
Qed.
