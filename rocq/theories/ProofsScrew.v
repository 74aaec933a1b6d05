(** * ProofsScrew: constructors and parts of dual quaternions (C61), Euler angles
      of quaternions and homogeneous matrices (C62), screw axes and twists
      (C63, C64), inverse rotations (C65) *)

From Coq Require Import List Arith Lia Bool Reals Lra ZArith Ring Nsatz.
From Verif Require Import Base Scalar Vec Mat2 Mat3 Mat4 Mat5 Mat6 Slices MatLoops MatOps
  Quat Transf DualQuat RingDet Spec Entries DetEntries InstZ InstR ProofsRing RFacts InvFacts ProofsInverse QRFacts ProofsNorm ProofsQuat ProofsRigid
  TrigFacts ProofsRot ProofsQuatR ProofsQuatExp ProofsEuler ProofsDual ExpSeries ProofsExp.
Import ListNotations.
Open Scope sc_scope.

Section AnyScalar.
Context {T : Type} {nT : Num T} {sT : Signed T} {oT : POrd T} {fT : Float T}.

(** ** C61 *)

Lemma c61_quaternion_parts : forall (w x y z : T),
  let a := q_new_from w x y z in
  qval a = (w, x, y, z) /\ q_real a = w /\ q_imag a = [| x; y; z |]
  /\ qval (q_new w [| x; y; z |]) = (w, x, y, z) /\ qval (q_new_from_vec [| w; x; y; z |]) = (w, x, y, z)
  /\ qval (q_new_real w) = (w, zero, zero, zero) /\ qval (q_new_imag [| x; y; z |]) = (zero, x, y, z)
  /\ normalized a = false.
Proof. intros. repeat split; reflexivity. Qed.

Lemma c61_dual_parts : forall (p r : Quaternion T) (v w : V4 T),
  dq_real (dq_new p r) = p /\ dq_dual (dq_new p r) = r
  /\ dqval (dq_new_from_vecs v w)
     = ((vfun v 0, vfun v 1, vfun v 2, vfun v 3), (vfun w 0, vfun w 1, vfun w 2, vfun w 3)).
Proof. intros p r (a & b & c & d & []) (e & f & g & h & []). repeat split; reflexivity. Qed.

(** the three ways of reading a motion agree *)
Lemma c61_parts_agree : forall a : DualQuaternion T,
  dq_to_quaternion_translation a = (dq_real a, dq_get_translation a)
  /\ dq_to_rotation_translation a = (q_to_rotation (dq_real a), dq_get_translation a).
Proof. intros a. split; reflexivity. Qed.
End AnyScalar.

Section AnyRing.
Context {T : Type} {nT : Num T} {sT : Signed T} {fT : Float T}.
Variable RT : RingLaws T.
Let RT' : ring_theory zero one add mul sub neg (@eq T) := RT.
Add Ring TheRing : RT'.

(** ** C63: screw axes *)

(** axis with direction [s] through the point [q], pitch [h]: the velocity of
    the axis points is [h s], the angular velocity is [s] *)
Lemma c63_axis_velocity : forall (q s : V3 T) h,
  m44_mul_v (twist_to_se3 (screw_to_axis q s h)) (point q)
  = [| vfun s 0 * h; vfun s 1 * h; vfun s 2 * h; zero |]
  /\ tw_w (screw_to_axis q s h) = s.
Proof. intros (a & b & c & []) (d & e & f & []) h. split; [qlazy; rpairs; ring|reflexivity]. Qed.

(** the axis does not depend on the choice of the point on it *)
Lemma c63_axis_point : forall (q s : V3 T) h k,
  screw_to_axis (v3_add q (v3_scale s k)) s h = screw_to_axis q s h.
Proof. intros (a & b & c & []) (d & e & f & []) h k. qlazy. rpairs; ring. Qed.

(** rigid motions move the axis *)
Lemma c63_axis_moved : forall (A : M44 T) (q s : V3 T) h, SE3 A ->
  exists X, adjoint A = Ok X /\
  m66_mul_v X (screw_to_axis q s h)
  = screw_to_axis (v3_add (m33_mul_v (rot_of A) q) (trans_of A)) (m33_mul_v (rot_of A) s) h.
Proof.
  intros A q s h H. destruct (adjoint_total A) as [X E]. exists X. split; [exact E| ].
  rewrite (adjoint_entries RT _ _ E). destruct H as [H _].
  assert (S : forall q s : V3 T, screw_to_axis q s h = tw s (v3_add (v3_cross q s) (v3_scale s h))).
  { intros (a & b & c & []) (d & e & f & []). reflexivity. }
  rewrite !S, tw_w_tw, tw_v_tw. f_equal.
  pose proof (SO3_cross RT (rot_of A) q s H) as C. revert C. generalize (rot_of A) (trans_of A). intros R p C.
  assert (L : forall y z, m33_mul_v R (v3_add y z) = v3_add (m33_mul_v R y) (m33_mul_v R z)).
  { clear - RT'. intros. rdes. qlazy. rpairs; ring. }
  assert (L2 : m33_mul_v R (v3_scale s h) = v3_scale (m33_mul_v R s) h).
  { clear - RT'. rdes. qlazy. rpairs; ring. }
  rewrite L, L2, C. generalize (m33_mul_v R q) (m33_mul_v R s). clear - RT'. intros. rdes. qlazy. rpairs; ring.
Qed.
End AnyRing.

Section Real.
Context {K : RConsts} (OK : RConstsOk K).
Local Open Scope R_scope.
Notation Q := (Quaternion R).

(** ** C61: seven numbers, quaternion then translation *)
Lemma c61_array_motion : forall q0 q1 q2 q3 x y z : R,
  q0 * q0 + q1 * q1 + q2 * q2 + q3 * q3 = 1 ->
  let a := dq_new_from_array [| q0; q1; q2; q3; x; y; z |] in
  dq_to_homogeneous a = homogeneous_from_quaternion (q_new_from q0 q1 q2 q3) [| x; y; z |]
  /\ dq_to_quaternion_translation a = (q_new_from q0 q1 q2 q3, [| x; y; z |]).
Proof.
  intros q0 q1 q2 q3 x y z U a. destruct (c37_from_array q0 q1 q2 q3 x y z) as [_ H].
  destruct (H U) as [_ E]. fold a in E. split.
  - unfold dq_to_homogeneous. rewrite (proj2 (c61_parts_agree a)), E. reflexivity.
  - rewrite (proj1 (c61_parts_agree a)), E. reflexivity.
Qed.

(** ** C62 *)

(** the rotation matrix of the quaternion is far enough from gimbal lock, or at it *)
Definition gimbal_ok (r : M33 R) : Prop := cos_pitch r = 0 \/ 4 * r_eps <= cos_pitch r.

Lemma c62_to_euler_round_trip : forall q : Q, unit_quat q -> gimbal_ok (q_to_rotation q) ->
  let '(yaw, pitch, roll) := q_to_euler_angles q in
  let p := q_from_euler_angles yaw pitch roll in
  q_to_rotation p = q_to_rotation q /\ (qval p = qval q \/ qval p = qval (q_neg q)).
Proof.
  intros q U G. unfold q_to_euler_angles.
  pose proof (c31_exact OK (q_to_rotation q) (c27_to_rotation_SO3 R_ring q U) G) as E. unfold rebuilt in E.
  destruct (rotation_to_euler (q_to_rotation q)) as [[y p] r] eqn:ER.
  destruct (c30_from_euler_angles (K := K) y p r) as (Up & _ & R1 & _). rewrite E in R1.
  split; [exact R1| ]. now apply to_rotation_determines.
Qed.

(** everywhere, the rotation is recovered within [8 epsilon] *)
Lemma c62_to_euler_approx : forall q : Q, unit_quat q ->
  let '(yaw, pitch, roll) := q_to_euler_angles q in
  forall i j, (i < 3)%nat -> (j < 3)%nat ->
  Rabs (mfun (q_to_rotation (q_from_euler_angles yaw pitch roll)) i j - mfun (q_to_rotation q) i j) <= 8 * r_eps.
Proof.
  intros q U. unfold q_to_euler_angles.
  pose proof (c31_approx OK (q_to_rotation q) (c27_to_rotation_SO3 R_ring q U)) as E. unfold rebuilt in E.
  destruct (rotation_to_euler (q_to_rotation q)) as [[y p] r] eqn:ER.
  destruct (c30_from_euler_angles (K := K) y p r) as (Up & _ & R1 & _). rewrite R1. exact E.
Qed.

(** [get_parts] splits a homogeneous matrix into its rotation and translation *)
Lemma c62_get_parts : forall A : M44 R, SE3 A -> gimbal_ok (rot_of A) ->
  let '(q, p) := get_parts A in unit_quat q /\ normalized q = true /\ homogeneous_from_quaternion q p = A.
Proof.
  intros A H G. unfold get_parts. pose proof (c31_exact OK (rot_of A) (proj1 H) G) as E. unfold rebuilt in E.
  change [| [| A.[0].[0]; A.[0].[1]; A.[0].[2] |]; [| A.[1].[0]; A.[1].[1]; A.[1].[2] |]; [| A.[2].[0]; A.[2].[1]; A.[2].[2] |] |]
    with (rot_of A).
  destruct (rotation_to_euler (rot_of A)) as [[y p] r] eqn:ER.
  destruct (c30_from_euler_angles (K := K) y p r) as (Up & N & R1 & _). rewrite E in R1.
  split; [exact Up|split; [exact N| ]]. unfold homogeneous_from_quaternion. rewrite R1.
  symmetry. exact (SE3_form A H).
Qed.

(** ** C63: the exponential of a screw axis is the screw motion *)

Lemma rodrigues_neg (u : V3 R) t : rodrigues (v3_neg u) t = rodrigues u (- t).
Proof.
  unfold rodrigues. rewrite cos_neg, sin_neg. generalize (cos t) (sin t). intros c s.
  destruct u as (x & y & z & []). rlazy. rpairs; ring.
Qed.

Lemma screw_motion_pos (q s : V3 R) h t : unit3 s -> r_eps <= t -> exists E,
  matrix_exponential6 (twist_to_se3 (v6_scale (screw_to_axis q s h) t)) = Ok E
  /\ forall x, m44_mul_v E (point x)
     = point (v3_add (v3_add q (m33_mul_v (rodrigues s t) (v3_sub x q))) (v3_scale s (h * t))).
Proof.
  intros U L. pose proof (eps_pos K OK) as E0. assert (T : t <> 0) by lra.
  set (v := v3_scale (v3_add (v3_cross q s) (v3_scale s h)) t).
  assert (S : v6_scale (screw_to_axis q s h) t = tw (v3_scale s t) v).
  { unfold v. clear. destruct q as (a & b & c & []), s as (d & e & f & []). reflexivity. }
  rewrite S, (exponential6_value OK s v t U L). eexists. split; [reflexivity| ]. intros x.
  unfold v. clear S v. revert U. unfold unit3, left_jacobian, rodrigues. cbv zeta. generalize (cos t) (sin t). clear - T. intros c sn.
  destruct q as (a & b & g & []), s as (d & e & f & []), x as (x1 & x2 & x3 & []). rlazy. intros U.
  assert (K1 : (1 - c) / t * t = 1 - c) by (field; exact T). assert (K2 : (t - sn) / t * t = t - sn) by (field; exact T).
  set (k1 := (1 - c) / t) in *. set (k2 := (t - sn) / t) in *. clearbody k1 k2. clear T.
  rpairs; try reflexivity. all: nsatz.
Qed.

(** rotation by [theta] about the line through [q] with direction [s], and a
    displacement of [h theta] along it *)
Lemma c63_screw_motion : forall (q s : V3 R) h theta, unit3 s -> r_eps <= Rabs theta -> exists E,
  matrix_exponential6 (twist_to_se3 (v6_scale (screw_to_axis q s h) theta)) = Ok E
  /\ forall x, m44_mul_v E (point x)
     = point (v3_add (v3_add q (m33_mul_v (rodrigues s theta) (v3_sub x q))) (v3_scale s (h * theta))).
Proof.
  intros q s h t U L. destruct (Rle_lt_dec 0 t) as [P|P].
  - rewrite Rabs_pos_eq in L by exact P. now apply screw_motion_pos.
  - rewrite Rabs_left in L by exact P.
    assert (U' : unit3 (v3_neg s)).
    { revert U. unfold unit3. clear. destruct s as (a & b & c & []). rlazy. intros. lra. }
    destruct (screw_motion_pos q (v3_neg s) h (- t) U' L) as (E & HE & M).
    exists E. split.
    + rewrite <- HE. do 2 f_equal. clear. destruct q as (a & b & c & []), s as (d & e & f & []). rlazy. rpairs; ring.
    + intros x. rewrite (M x), rodrigues_neg, Ropp_involutive. do 2 f_equal.
      clear. destruct s as (d & e & f & []). rlazy. rpairs; ring.
Qed.

(** ** C64: exponential coordinates *)

Lemma c64_axis_angle : forall v : V3 R, v <> v3_zeros -> exists n,
  axis_angle v = Ok (n, v3_norm2 v) /\ unit3 n /\ v3_scale n (v3_norm2 v) = v.
Proof.
  intros v H. unfold axis_angle. rewrite v3_normalize_eq by exact H. cbn [unwrap bind].
  exists (unit_of v). split; [reflexivity| ].
  assert (P : 0 < v3_norm2 v).
  { pose proof (v3_norm2_nonneg v). destruct (Req_dec (v3_norm2 v) 0) as [Z|Z]; [ |lra].
    apply v3_norm2_zero in Z. contradiction. }
  pose proof (v3_norm2_sq v) as Sq. unfold unit_of.
  assert (E : sqrt (v3_dot v v) = v3_norm2 v) by (rewrite <- Sq; apply sqrt_square; lra).
  rewrite E. split.
  - unfold unit3. transitivity (v3_dot v v * (/ v3_norm2 v * / v3_norm2 v)).
    + generalize (/ v3_norm2 v). clear. intros k. rdes. rlazy. ring.
    + rewrite <- Sq. field. lra.
  - rewrite v3_scale_scale. replace (/ v3_norm2 v * v3_norm2 v) with 1 by (field; lra). apply v3_scale_1.
Qed.

Lemma c64_axis_angle_panic_iff : forall v : V3 R, axis_angle v = Panic <-> v = v3_zeros.
Proof.
  intros v. split.
  - intros E. destruct (Req_dec (v3_norm2 v) 0) as [Z|N]; [now apply v3_norm2_zero| ].
    rewrite v3_norm2_zero in N.
    destruct (c64_axis_angle v N) as (n & H & _). congruence.
  - intros ->. unfold axis_angle. rewrite (proj2 (c19_normalize_err_iff D3 v3_zeros) eq_refl : v3_normalize v3_zeros = Ok None).
    reflexivity.
Qed.

Lemma norm2_ang (e : V6 R) : norm2 (firstn 3 (alist e)) = v3_norm2 (tw_w e).
Proof.
  destruct e as (a & b & c & d & x & f & []).
  transitivity (norm2 (alist (n := 3) [| a; b; c |])); [reflexivity| ].
  rewrite norm2_ip. symmetry. exact (d_vnorm2_ip D3 [| a; b; c |]).
Qed.
Lemma norm2_lin (e : V6 R) : norm2 (skipn 3 (alist e)) = v3_norm2 (tw_v e).
Proof.
  destruct e as (a & b & c & d & x & f & []).
  transitivity (norm2 (alist (n := 3) [| d; x; f |])); [reflexivity| ].
  rewrite norm2_ip. symmetry. exact (d_vnorm2_ip D3 [| d; x; f |]).
Qed.
Lemma v6_div_parts (e : V6 R) t : t <> 0 -> v6_scale (v6_div e t) t = e
  /\ tw_w (v6_div e t) = v3_scale (tw_w e) (/ t) /\ tw_v (v6_div e t) = v3_scale (tw_v e) (/ t).
Proof.
  intros T. destruct e as (a & b & c & d & x & f & []). rlazy. split; [rpairs; field; exact T|split; rpairs; field; exact T].
Qed.

(** a twist with rotation: the rotation part is normalised *)
Lemma c64_axis_angle6_rotation : forall e : V6 R, r_eps <= v3_norm2 (tw_w e) ->
  let '(axis, theta) := axis_angle6 e in
  theta = v3_norm2 (tw_w e) /\ v6_scale axis theta = e /\ v3_norm2 (tw_w axis) = 1.
Proof.
  intros e L. pose proof (eps_pos K OK) as E0. unfold axis_angle6. rewrite norm2_ang.
  replace (nearly_zero (v3_norm2 (tw_w e))) with false.
  2:{ symmetry. apply (nearly_zero_false OK). rewrite Rabs_pos_eq; [exact L|apply v3_norm2_nonneg]. }
  assert (NZ : v3_norm2 (tw_w e) <> 0) by lra.
  destruct (v6_div_parts e (v3_norm2 (tw_w e)) NZ) as (A & B & _).
  split; [reflexivity|split; [exact A| ]]. rewrite B, v3_norm2_scale, Rabs_pos_eq.
  - field. lra.
  - left. apply Rinv_0_lt_compat. lra.
Qed.

(** no (significant) rotation: the translation part is normalised *)
Lemma c64_axis_angle6_translation : forall e : V6 R, v3_norm2 (tw_w e) < r_eps -> tw_v e <> v3_zeros ->
  let '(axis, theta) := axis_angle6 e in
  theta = v3_norm2 (tw_v e) /\ v6_scale axis theta = e /\ v3_norm2 (tw_v axis) = 1.
Proof.
  intros e L N. unfold axis_angle6. rewrite norm2_ang.
  replace (nearly_zero (v3_norm2 (tw_w e))) with true.
  2:{ symmetry. apply (nearly_zero_iff OK). rewrite Rabs_pos_eq; [exact L|apply v3_norm2_nonneg]. }
  rewrite norm2_lin.
  assert (P : 0 < v3_norm2 (tw_v e)).
  { pose proof (v3_norm2_nonneg (tw_v e)). destruct (Req_dec (v3_norm2 (tw_v e)) 0) as [Z|Z]; [ |lra].
    apply v3_norm2_zero in Z. contradiction. }
  assert (NZ : v3_norm2 (tw_v e) <> 0) by lra.
  destruct (v6_div_parts e (v3_norm2 (tw_v e)) NZ) as (A & _ & B).
  split; [reflexivity|split; [exact A| ]]. rewrite B, v3_norm2_scale, Rabs_pos_eq.
  - field. lra.
  - left. apply Rinv_0_lt_compat. lra.
Qed.

(** ** C65 *)
Lemma c65_rotation_inverse : forall r : M33 R, SO3 r ->
  m33_mul r (rotation_inverse r) = m33_identity /\ m33_mul (rotation_inverse r) r = m33_identity
  /\ SO3 (rotation_inverse r) /\ d_inverse D3 r = Ok (Some (rotation_inverse r)).
Proof.
  intros r H. pose proof H as (A & B & D). unfold rotation_inverse. split; [exact B|split; [exact A|split]].
  - apply (SO3_transpose R_ring). exact H.
  - apply (c07_inverse_unique OK D3); [exact B| ]. cbn [dimn]. rewrite D. cbn [one R_Num].
    rewrite Rabs_R1. pose proof (eps_small K OK). lra.
Qed.
End Real.

Section Examples.
Local Open Scope R_scope.
#[local] Existing Instance f64_consts.
Let OK := f64_consts_ok.

(** a half turn with pitch about a line parallel to z through (1, 0, 0) *)
Example C63_case : unit3 ez /\ r_eps <= Rabs PI.
Proof.
  pose proof (eps_small _ OK) as E. pose proof PI2_1.
  split; [unfold unit3; rlazy; ring|rewrite Rabs_pos_eq; lra].
Qed.
Example C63_case_axis : screw_to_axis [| 1; 0; 0 |] ez 3 = [| 0; 0; 1; 0; -1; 3 |].
Proof. rlazy. rpairs; ring. Qed.

Example C62_case : unit_quat (q_new_from (3/5) 0 0 (4/5) : Quaternion R)
  /\ gimbal_ok (q_to_rotation (q_new_from (3/5) 0 0 (4/5))).
Proof.
  pose proof (eps_small _ OK) as E. split; [unfold unit_quat; rlazy; field| ]. right. unfold cos_pitch.
  replace (mfun (q_to_rotation (q_new_from (3 / 5) 0 0 (4 / 5))) 0 0) with (-7/25) by (rlazy; field).
  replace (mfun (q_to_rotation (q_new_from (3 / 5) 0 0 (4 / 5))) 1 0) with (24/25) by (rlazy; field).
  replace (-7 / 25 * (-7 / 25) + 24 / 25 * (24 / 25)) with 1 by field. rewrite sqrt_1. lra.
Qed.

Example C64_case : let e := [| 0; 0; 2; 1; 2; 3 |] : V6 R in let f := [| 0; 0; 0; 1; 2; 3 |] : V6 R in
  r_eps <= v3_norm2 (tw_w e) /\ v3_norm2 (tw_w f) < r_eps /\ tw_v f <> v3_zeros.
Proof.
  intros e f. pose proof (eps_small _ OK) as E. pose proof (eps_pos _ OK) as P.
  assert (N : v3_norm2 (tw_w e) = 2).
  { replace (tw_w e) with (v3_scale ez 2) by (unfold e; rlazy; rpairs; ring).
    rewrite v3_norm2_scale, unit3_norm, Rabs_pos_eq by (try lra; unfold unit3; rlazy; ring). ring. }
  rewrite N. split; [lra|split].
  - replace (v3_norm2 (tw_w f)) with 0; [lra| ]. symmetry. apply v3_norm2_zero. reflexivity.
  - intros Z. apply (f_equal (fun v => vfun v 0)) in Z. unfold f in Z. revert Z. rlazy. lra.
Qed.

Example C65_case : SO3 (rodrigues ez 1).
Proof. apply rodrigues_SO3. unfold unit3. rlazy. ring. Qed.
End Examples.
