(** * ProofsDefined3: no undefined operation in transformations.rs (C73, C74) *)

From Coq Require Import Reals Lra Bool List Arith Lia.
From Verif Require Import Base Scalar Vec Slices Mat2 Mat3 Mat4 Mat5 Mat6 MatLoops MatOps Quat Transf DualQuat
  RingDet Spec Entries InstR RFacts TrigFacts InstE ProofsDefined ProofsDefined2 ProofsNorm ProofsQuat ProofsRigid ProofsRot
  ProofsQuatR ProofsQuatExp ProofsDual ExpSeries ProofsExp.
Import ListNotations.
Local Open Scope R_scope.

Section Defined.
Context {K : RConsts} (OK : RConstsOk K).

(** ** 3x3 matrices: lifting *)
Lemma e_m33_div (A : M33 R) s : s <> 0 -> m33_div (up_m (n:=3) A) (Some s) = up_m (n:=3) (m33_div A s).
Proof.
  intros H. rdes. unfold m33_div, up_m, amap; cbn -[div]. rewrite !e_div_ok by auto. reflexivity.
Qed.
Lemma e_v6_div (v : V6 R) s : s <> 0 -> v6_div (up_v (n:=6) v) (Some s) = up_v (n:=6) (v6_div v s).
Proof.
  intros H. rdes. unfold v6_div, up_v, amap; cbn -[div]. rewrite !e_div_ok by auto. reflexivity.
Qed.
Lemma e_m33_mul A B : m33_mul (up_m (n:=3) A) (up_m (n:=3) B) = up_m (n:=3) (m33_mul A B).
Proof. reflexivity. Qed.
Lemma e_m33_add A B : m33_add (up_m (n:=3) A) (up_m (n:=3) B) = up_m (n:=3) (m33_add A B).
Proof. reflexivity. Qed.
Lemma e_m33_sub A B : m33_sub (up_m (n:=3) A) (up_m (n:=3) B) = up_m (n:=3) (m33_sub A B).
Proof. reflexivity. Qed.
Lemma e_m33_scale A s : m33_scale (up_m (n:=3) A) (Some s) = up_m (n:=3) (m33_scale A s).
Proof. reflexivity. Qed.
Lemma e_m33_mul_v A v : m33_mul_v (up_m (n:=3) A) (up_v (n:=3) v) = up_v (n:=3) (m33_mul_v A v).
Proof. reflexivity. Qed.
Lemma e_m33_identity : m33_identity = up_m (n:=3) m33_identity.
Proof. reflexivity. Qed.
Lemma e_m33_is_zero A : m33_is_zero (up_m (n:=3) A) = m33_is_zero A.
Proof. reflexivity. Qed.

(** ** Exponential coordinates *)
Definition up_va (x : V3 R * R) : V3 E * E := (up_v (n:=3) (fst x), Some (snd x)).

Lemma c73_axis_angle : forall w, axis_angle (up_v (n:=3) w) = up_o up_va (axis_angle w).
Proof.
  intros w. unfold axis_angle. rewrite (e_v3_normalize w).
  destruct (v3_normalize w) as [ [n| ]| ]; try reflexivity. cbn [up_o option_map unwrap]. rewrite e_v3_norm2. reflexivity.
Qed.

Lemma c73_exponential : forall A, matrix_exponential (up_m (n:=3) A) = up_o (up_m (n:=3)) (matrix_exponential A).
Proof.
  intros A. unfold matrix_exponential.
  change (skew_to_vec (up_m (n:=3) A)) with (up_v (n:=3) (skew_to_vec A)).
  rewrite c73_axis_angle, e_v3_norm2, (e_nearly_zero OK).
  destruct (nearly_zero_cases OK (v3_norm2 (skew_to_vec A))) as [[-> H]|[-> [H H0]]]; [reflexivity| ].
  destruct (axis_angle (skew_to_vec A)) as [ [n t]| ] eqn:AA; [ |reflexivity].
  assert (T : t = v3_norm2 (skew_to_vec A)).
  { revert AA. unfold axis_angle. destruct (v3_normalize _) as [ [m| ]| ]; try discriminate.
    cbn [unwrap]. intros X. injection X as _ <-. reflexivity. }
  unfold up_va; cbn [up_o fst snd bind]. rewrite e_m33_div by (rewrite T; exact H0). reflexivity.
Qed.

Lemma c73_exponential6 : forall A, matrix_exponential6 (up_m (n:=4) A) = up_o (up_m (n:=4)) (matrix_exponential6 A).
Proof.
  intros A. unfold matrix_exponential6.
  change (se3_get_parts (up_m (n:=4) A)) with (up_m (n:=3) (fst (se3_get_parts A)), up_v (n:=3) (snd (se3_get_parts A))).
  destruct (se3_get_parts A) as [S v]. cbn [fst snd].
  change (skew_to_vec (up_m (n:=3) S)) with (up_v (n:=3) (skew_to_vec S)).
  rewrite c73_axis_angle, c73_exponential, e_v3_norm2, (e_nearly_zero OK).
  destruct (nearly_zero_cases OK (v3_norm2 (skew_to_vec S))) as [[-> H]|[-> [H H0]]]; [reflexivity| ].
  destruct (axis_angle (skew_to_vec S)) as [ [n t]| ] eqn:AA; [ |reflexivity].
  assert (T : t <> 0).
  { revert AA. unfold axis_angle. destruct (v3_normalize _) as [ [m| ]| ]; try discriminate.
    cbn [unwrap]. intros X. injection X as _ <-. exact H0. }
  unfold up_va; cbn [up_o fst snd bind]. destruct (matrix_exponential S) as [M| ]; [ |reflexivity]. cbn [up_o bind].
  rewrite e_m33_div by exact T. unfold sin_cos. cbn [fsin fcos E_Float R_Float e1 sub E_Num R_Num e2 one].
  change (m33_identity (T := E)) with (up_m (n:=3) m33_identity).
  rewrite !e_m33_mul, !e_m33_scale, !e_m33_add, e_m33_mul_v, e_v3_div by exact T. reflexivity.
Qed.

(** the twist [exp] has an axis: [axis_angle6] divides by zero exactly on a pair of
    parts that are negligible and zero *)
Lemma e_norm2_firstn (w : V6 R) : norm2 (firstn 3 (alist (up_v (n:=6) w))) = Some (norm2 (firstn 3 (alist w))).
Proof. destruct w as (a & b & c & x & y & z & []). unfold norm2. apply e_sqrt_ok. cbn. nra. Qed.
Lemma e_norm2_skipn (w : V6 R) : norm2 (skipn 3 (alist (up_v (n:=6) w))) = Some (norm2 (skipn 3 (alist w))).
Proof. destruct w as (a & b & c & x & y & z & []). unfold norm2. apply e_sqrt_ok. cbn. nra. Qed.

Lemma c73_axis_angle6 : forall w,
  axis_angle6 (up_v (n:=6) w) = (up_v (n:=6) (fst (axis_angle6 w)), Some (snd (axis_angle6 w)))
  <-> r_eps <= norm2 (firstn 3 (alist w)) \/ norm2 (skipn 3 (alist w)) <> 0.
Proof.
  intros w. pose proof (eps_pos K OK) as E0. unfold axis_angle6.
  rewrite e_norm2_firstn, e_norm2_skipn, (e_nearly_zero OK).
  assert (P : 0 <= norm2 (firstn 3 (alist w))) by apply sqrt_pos.
  destruct (nearly_zero_cases OK (norm2 (firstn 3 (alist w)))) as [[-> H]|[-> [H H0]]]; rewrite Rabs_pos_eq in H by exact P.
  - destruct (Req_EM_T (norm2 (skipn 3 (alist w))) 0) as [Z|Z].
    + rewrite Z. split; [ |intros [X|X]; [lra|contradiction]]. intros X. exfalso.
      apply (f_equal (fun x => fst (fst x))) in X. revert X. cbn -[Rdiv]. destruct (Req_EM_T 0 0); [discriminate|easy].
    + rewrite e_v6_div by exact Z. split; auto.
  - rewrite e_v6_div by exact H0. split; auto.
Qed.

(** ** Logarithms *)
Lemma c73_log : forall A, SO3 A -> matrix_log (up_m (n:=3) A) = up_m (n:=3) (matrix_log A).
Proof.
  intros A0 HA. destruct (SO3_rodrigues A0 HA) as (u & t & U & T & ->). clear HA.
  pose proof (eps_pos K OK) as E0. pose proof (eps_small K OK) as E1. pose proof PI_RGT_0 as PP.
  destruct (rodrigues_angle u t U T) as [_ TR].
  assert (F : t = PI -> forall i, (i < 3)%nat -> mfun (rodrigues u t) i i = 2 * (vfun u i * vfun u i) - 1).
  { intros -> i Hi. unfold rodrigues. rewrite cos_PI, sin_PI. clear - Hi. destruct u as (x & y & z & []).
    all_lt i Hi; rlazy; ring. }
  assert (U3 : vfun u 0 * vfun u 0 + vfun u 1 * vfun u 1 + vfun u 2 * vfun u 2 = 1).
  { clear - U. destruct u as (x & y & z & []). revert U. unfold unit3. rlazy. lra. }
  set (A := rodrigues u t) in *. clearbody A.
  unfold matrix_log. change (m33_trace (up_m (n:=3) A)) with (Some (m33_trace A)).
  cbn [sub add one E_Num e2 R_Num]. rewrite e_div_ok by lra.
  change ((m33_trace A - 1)%R / (1 + 1)%R)%sc with ((m33_trace A - 1) / (1 + 1)). rewrite TR.
  cbn [leb neg E_POrd E_Signed e1 eb R_POrd R_Signed].
  destruct (Rleb 1 (cos t)) eqn:C1; [reflexivity| ]. apply Rleb_false in C1.
  destruct (Rleb (cos t) (- (1))) eqn:C2.
  - apply Rleb_true in C2.
    assert (tPI : t = PI).
    { destruct (Rle_lt_or_eq_dec t PI (proj2 T)) as [L|L]; [ |exact L]. pose proof (cos_gt_m1 t ltac:(lra)). lra. }
    specialize (F tPI).
    change ((up_m (n:=3) A).[2].[2]) with (Some (mfun A 2 2)). change ((up_m (n:=3) A).[1].[1]) with (Some (mfun A 1 1)).
    change ((up_m (n:=3) A).[0].[0]) with (Some (mfun A 0 0)). 
    change (A.[2].[2]) with (mfun A 2 2). change (A.[1].[1]) with (mfun A 1 1). change (A.[0].[0]) with (mfun A 0 0).
    cbn [e2]. rewrite !(e_nearly_zero OK).
    assert (NN : forall i, (i < 3)%nat -> 0 <= 1 + mfun A i i).
    { intros i Hi. rewrite F by exact Hi. pose proof (Rle_0_sqr (vfun u i)) as X. unfold Rsqr in X. lra. }
    assert (D : forall i, (i < 3)%nat -> r_eps <= 1 + mfun A i i \/ / 2 <= 1 + mfun A i i ->
       (Some 1%R / fsqrt (Some (1 + 1)%R * Some (1 + mfun A i i)%R))%sc = Some (1 / sqrt ((1 + 1) * (1 + mfun A i i)))).
    { intros i Hi B. cbn [mul E_Num e2]. pose proof (NN i Hi). rewrite e_sqrt_ok by lra. apply e_div_ok.
      apply Rgt_not_eq, sqrt_lt_R0. destruct B; lra. }
    destruct (nearly_zero_cases OK (1 + mfun A 2 2)) as [[-> H2]|[-> [H2 _]]]; rewrite Rabs_pos_eq in H2 by auto; cbn [negb].
    + destruct (nearly_zero_cases OK (1 + mfun A 1 1)) as [[-> H1]|[-> [H1 _]]]; rewrite Rabs_pos_eq in H1 by auto; cbn [negb].
      * rewrite D; [reflexivity|lia|right]. rewrite F in * by lia. lra.
      * rewrite D; [reflexivity|lia|auto].
    + rewrite D; [reflexivity|lia|auto].
  - apply Rleb_false in C2. rewrite e_acos_ok by lra.
    assert (0 < t < PI) as T1.
    { split; [destruct (Rle_lt_or_eq_dec 0 t (proj1 T)) as [L|L]|destruct (Rle_lt_or_eq_dec t PI (proj2 T)) as [L|L]]; try exact L; exfalso.
      - rewrite <- L, cos_0 in C1. lra.
      - rewrite L, cos_PI in C2. lra. }
    cbn [fsin facos E_Float R_Float e1]. rewrite acos_cos by lra.
    pose proof (sin_gt_0 t ltac:(lra) ltac:(lra)). 
    rewrite (e_div_ok t) by lra. rewrite e_div_ok by lra. reflexivity.
Qed.

Lemma log_halfturn_nonzero (u : V3 R) : unit3 u -> matrix_log (rodrigues u PI) <> m33_zeros.
Proof.
  intros U Z. destruct (rodrigues_angle u PI U) as [_ TR]; [pose proof PI_RGT_0; lra| ].
  pose proof PI_RGT_0 as PP. pose proof (eps_pos K OK) as E0. pose proof (eps_small K OK) as E1.
  assert (F : forall i, (i < 3)%nat -> mfun (rodrigues u PI) i i = 2 * (vfun u i * vfun u i) - 1).
  { intros i Hi. unfold rodrigues. rewrite cos_PI, sin_PI. clear - Hi. destruct u as (x & y & z & []).
    all_lt i Hi; rlazy; ring. }
  assert (U3 : vfun u 0 * vfun u 0 + vfun u 1 * vfun u 1 + vfun u 2 * vfun u 2 = 1).
  { clear - U. destruct u as (x & y & z & []). revert U. unfold unit3. rlazy. lra. }
  set (A := rodrigues u PI) in *. clearbody A.
  assert (NN : forall i, (i < 3)%nat -> 0 <= 1 + mfun A i i).
  { intros i Hi. rewrite F by exact Hi. pose proof (Rle_0_sqr (vfun u i)) as X. unfold Rsqr in X. lra. }
  assert (D : forall x, r_eps <= x -> x * (1 / sqrt ((1 + 1) * x)) * PI <> 0).
  { intros x Hx. apply Rgt_not_eq. apply Rmult_lt_0_compat; [ |lra]. apply Rmult_lt_0_compat; [lra| ].
    apply Rdiv_lt_0_compat; [lra| ]. apply sqrt_lt_R0. lra. }
  revert Z. unfold matrix_log. cbn [sub add one div R_Num leb R_POrd neg R_Signed PI_ R_Float fsqrt mul]. rewrite TR, cos_PI.
  replace (Rleb 1 (-1)) with false by (symmetry; apply Rleb_false; lra).
  replace (Rleb (-1) (-(1))) with true by (symmetry; apply Rleb_true; lra).
  change (A.[2].[2]) with (mfun A 2 2). change (A.[1].[1]) with (mfun A 1 1). change (A.[0].[0]) with (mfun A 0 0).
  destruct (nearly_zero_cases OK (1 + mfun A 2 2)) as [[-> H2]|[-> [H2 _]]]; rewrite Rabs_pos_eq in H2 by auto; cbn [negb].
  - destruct (nearly_zero_cases OK (1 + mfun A 1 1)) as [[-> H1]|[-> [H1 _]]]; rewrite Rabs_pos_eq in H1 by auto; cbn [negb].
    + intros Z. apply (f_equal (fun M => mfun M 2 1)) in Z. revert Z. apply D. rewrite F in * by lia. lra.
    + intros Z. apply (f_equal (fun M => mfun M 0 2)) in Z. revert Z. apply D. lra.
  - intros Z. apply (f_equal (fun M => mfun M 1 0)) in Z. revert Z. apply D. lra.
Qed.

(** [matrix_log6] takes a tangent at its pole exactly on half turns *)
Lemma c74_log6_partial : forall A, SE3 A ->
  matrix_log6 (up_m (n:=4) A) = up_m (n:=4) (matrix_log6 A) <-> rot_angle (rot_of A) <> PI.
Proof.
  intros A HA. destruct HA as [HR _].
  unfold matrix_log6.
  change (get_parts_raw (up_m (n:=4) A)) with (up_m (n:=3) (rot_of A), up_v (n:=3) (trans_of A)).
  change (get_parts_raw A) with (rot_of A, trans_of A). cbv beta iota zeta.
  rewrite c73_log, e_m33_is_zero by exact HR.
  destruct (SO3_rodrigues (rot_of A) HR) as (u & t & U & T & EQ). rewrite EQ in HR |- *. clear EQ.
  destruct (rodrigues_angle u t U T) as [RA TR]. rewrite RA.
  destruct (m33_is_zero (matrix_log (rodrigues u t))) eqn:Z.
  - split; [intros _ ->|reflexivity]. apply m33_is_zero_iff in Z.
    revert Z. apply log_halfturn_nonzero. exact U.
  - assert (T0 : 0 < t).
    { destruct (Rle_lt_or_eq_dec 0 t (proj1 T)) as [L|L]; [exact L|exfalso].
      rewrite <- L, rodrigues_0, log_identity in Z. 
      assert (X : m33_is_zero (m33_zeros : M33 R) = true) by (apply m33_is_zero_iff; reflexivity). congruence. }
    change (m33_trace (up_m (n:=3) (rodrigues u t))) with (Some (m33_trace (rodrigues u t))).
    cbn [sub add one E_Num e2 R_Num]. rewrite (e_div_ok (m33_trace (rodrigues u t) - 1)) by lra.
    change ((m33_trace (rodrigues u t) - 1)%R / (1 + 1)%R)%sc with ((m33_trace (rodrigues u t) - 1) / (1 + 1)).
    rewrite TR. rewrite e_acos_ok by apply COS_bound. cbn [facos R_Float]. rewrite !acos_cos by lra.
    rewrite !(e_div_ok t) by lra. rewrite (e_div_ok 1) by lra.
    set (L := matrix_log (rodrigues u t)). 
    rewrite (e_m33_div L) by lra. 
    destruct (Req_EM_T (cos (t / (1 + 1))) 0) as [C|C].
    + split.
      * intros X. exfalso. apply (f_equal (fun M => ix3 (ix0 M))) in X. revert X.
        cbn [ftan E_Float e_tan]. destruct (Req_EM_T (cos (t / (1 + 1))) 0); [ |contradiction].
        cbn -[Rdiv cos tan]. discriminate.
      * intros X. exfalso. pose proof (cos_gt_0 (t / (1 + 1)) ltac:(lra) ltac:(lra)). lra.
    + split; [intros _ ->|intros _].
      * apply C. replace (PI / (1 + 1)) with (PI / 2) by field. apply cos_PI2.
      * rewrite e_tan_ok by exact C.
        assert (S : sin (t / (1 + 1)) <> 0).
        { pose proof PI_RGT_0. pose proof (sin_gt_0 (t / (1 + 1)) ltac:(lra) ltac:(lra)). lra. }
        rewrite (e_div_ok 1).
        2:{ unfold tan, Rdiv. apply Rmult_integral_contrapositive. split; [exact S|apply Rinv_neq_0_compat; exact C]. }
        rewrite e_div_ok by lra. cbn [e2].
        rewrite e_m33_mul, e_m33_scale, e_m33_div by lra. reflexivity.
Qed.

(** ** Poses *)
Definition up_t3 (x : R * R * R) : E * E * E := let '(a, b, c) := x in (Some a, Some b, Some c).

Lemma c73_rotation_to_euler : forall A, rotation_to_euler (up_m (n:=3) A) = up_t3 (rotation_to_euler A).
Proof.
  intros A. unfold rotation_to_euler. rdes. unfold up_m, amap. cbn [fst snd ix0 ix1 ix2 ahd atl].
  cbn [mul add neg E_Num E_Signed e1 e2 R_Num R_Signed]. rewrite e_sqrt_ok by nra.
  cbn [fatan2 fsqrt E_Float e1 e2 epsilon FRAC_PI_2 R_Float one E_Num R_Num mul]. rewrite !(e_nearly_equal OK).
  do 2 (match goal with |- (if ?a then _ else _) = up_t3 (if ?b then _ else _) => change b with a; destruct a end;
    [reflexivity| ]). reflexivity.
Qed.

Lemma c73_to_euler_angles : forall a, q_to_euler_angles (up_q a) = up_t3 (q_to_euler_angles a).
Proof. intros a. unfold q_to_euler_angles. rewrite e_q_to_rotation. apply c73_rotation_to_euler. Qed.

Lemma c73_get_parts : forall A, get_parts (up_m (n:=4) A) = (up_q (fst (get_parts A)), up_v (n:=3) (snd (get_parts A))).
Proof.
  intros A. unfold get_parts.
  change (rotation_to_euler _) with (rotation_to_euler (up_m (n:=3) (rot_of A))) at 1. rewrite c73_rotation_to_euler.
  change (rotation_to_euler _) with (rotation_to_euler (rot_of A)).
  destruct (rotation_to_euler (rot_of A)) as [ [y p] r]. unfold up_t3. cbn [fst snd].
  rewrite c73_from_euler_angles. reflexivity.
Qed.

Lemma c73_inverse_transform : forall A p,
  homogeneous_inverse_transform (up_m (n:=4) A) (up_v (n:=3) p) = up_v (n:=3) (homogeneous_inverse_transform A p).
Proof.
  intros A p. unfold homogeneous_inverse_transform. rewrite c73_get_parts. destruct (get_parts A) as [r t]. reflexivity.
Qed.

Lemma c73_is_rotation : forall A, is_rotation (up_m (n:=3) A) = is_rotation A.
Proof.
  intros A. unfold is_rotation. rewrite e_m33_mul.
  change (m33_det (up_m (n:=3) ?M)) with (Some (m33_det M)).
  cbn [one E_Num epsilon E_Float]. rewrite !(e_nearly_equal OK). reflexivity.
Qed.
Lemma c73_is_rotation_h : forall A, is_rotation_h (up_m (n:=4) A) = is_rotation_h A.
Proof.
  intros A. unfold is_rotation_h. change (m44_mul (up_m (n:=4) A) (up_m (n:=4) A)) with (up_m (n:=4) (m44_mul A A)).
  change (m44_det (up_m (n:=4) ?M)) with (Some (m44_det M)).
  cbn [one E_Num lit_1em6 E_Float]. rewrite !(e_nearly_equal OK). reflexivity.
Qed.
Lemma c73_distance_to_manifold : forall A, distance_to_manifold (up_m (n:=3) A) = Some (distance_to_manifold A).
Proof.
  intros A. unfold distance_to_manifold. change (m33_det (up_m (n:=3) A)) with (Some (m33_det A)).
  change (m33_transpose (up_m (n:=3) A)) with (up_m (n:=3) (m33_transpose A)).
  change (m33_identity (T := E)) with (up_m (n:=3) m33_identity). rewrite e_m33_mul, e_m33_sub.
  cbn [ltb zero E_POrd E_Num eb R_POrd R_Num]. destruct (Rltb 0 (m33_det A)); [ |reflexivity].
  generalize (m33_sub (m33_mul A (m33_transpose A)) m33_identity). intros M. rdes. unfold m33_norm2. apply e_sqrt_ok.
  cbn. nra.
Qed.

(** ** Interpolation *)
Lemma pow_undefined (a : DualQuaternion R) x : q0 (dq_real a) = -1 ->
  ix0 (q (q_real_ (dq_pow (up_dq a) (Some x)))) = None.
Proof.
  intros W. pose proof (eps_pos K OK) as E0. pose proof (eps_small K OK) as E1. pose proof PI2_1 as PP.
  unfold dq_pow. change (dq_real (up_dq a)) with (up_q (dq_real a)). change (dq_dual (up_dq a)) with (up_q (dq_dual a)).
  change (q_real (up_q (dq_real a))) with (Some (q0 (dq_real a))). rewrite W.
  rewrite e_acos_ok, acos_m1 by lra. cbn [mul add one E_Num e2 R_Num]. rewrite e_div_ok by lra.
  cbn [sin_cos fsin fcos E_Float e1]. rewrite (e_nearly_zero OK).
  replace ((1 + 1) * PI / (1 + 1)) with PI by field. rewrite sin_PI.
  destruct (nearly_zero_cases OK ((1 + 1) * PI)) as [[_ H]|[-> _]]; [apply Rabs_def2 in H; lra| ].
  cbn -[Rdiv sin acos cos]. destruct (Req_EM_T 0 0); [reflexivity|easy].
Qed.

Lemma pow_total (a : DualQuaternion R) x : q0 (dq_real a) <> -1 -> unit_dq a ->
  dq_pow (up_dq a) (Some x) = up_dq (dq_pow a x).
Proof.
  intros N [U _]. apply (c74_pow_partial OK).
  assert (-1 <= q0 (dq_real a) <= 1); [ |lra].
  revert U. unfold unit_quat. destruct (dq_real a) as [w (i & j & k & []) f]. rlazy. intros U. nra.
Qed.

Lemma quat_antipode (a b : Quaternion R) : unit_quat a -> unit_quat b ->
  q0 (q_mul (q_conj a) b) = -1 <-> qval b = qval (q_neg a).
Proof.
  unfold unit_quat. destruct a as [w (x & y & z & []) f], b as [w' (x' & y' & z' & []) f']. rlazy. intros Ua Ub. split.
  - intros H. assert (S : (w + w') * (w + w') + (x + x') * (x + x') + (y + y') * (y + y') + (z + z') * (z + z') = 0) by lra.
    assert (Z : forall p q r s : R, p * p + q * q + r * r + s * s = 0 -> p = 0).
    { intros p q r s X. assert (p * p = 0) as Y by nra. apply Rmult_integral in Y. tauto. }
    assert (w' = - w) by (apply Z in S; lra). assert (x' = - x) by (enough (x + x' = 0) by lra; apply (Z _ (w + w') (y + y') (z + z')); lra).
    assert (y' = - y) by (enough (y + y' = 0) by lra; apply (Z _ (w + w') (x + x') (z + z')); lra).
    assert (z' = - z) by (enough (z + z' = 0) by lra; apply (Z _ (w + w') (x + x') (y + y')); lra).
    subst. reflexivity.
  - intros H. injection H as -> -> -> ->. lra.
Qed.

Lemma lerp_cases a b tau : unit_dq a -> unit_dq b ->
  qval (dq_real b) <> qval (q_neg (dq_real (lerp_start a b)))
  /\ dq_screw_lerp (up_dq a) (up_dq b) (Some tau) = up_o up_dq (dq_screw_lerp a b tau)
  \/ qval (dq_real b) = qval (q_neg (dq_real (lerp_start a b)))
  /\ exists r, dq_screw_lerp (up_dq a) (up_dq b) (Some tau) = Ok r /\ q0 (dq_real r) = None.
Proof.
  intros Ua Ub. set (s := lerp_start a b).
  assert (Us : unit_dq s) by (unfold s, lerp_start; destruct Rlt_dec; [now apply neg_real_unit|exact Ua]).
  destruct (unit_inverse OK s Us) as (i & I & V).
  assert (Ur : unit_dq (dq_mul i b)).
  { apply (c35_unit_mul R_ring); [ |exact Ub].
    apply (unit_dq_val (dq_conj s)); [symmetry; exact V|now apply unit_conj_unit]. }
  assert (E1 : dq_screw_lerp a b tau = (j <- dq_inverse s ;; Ok (dq_mul s (dq_pow (dq_mul j b) tau)))).
  { unfold dq_screw_lerp, s, lerp_start. cbn [ltb R_POrd zero one R_Num neg R_Signed].
    change (q_real (q_mul (dq_real a) (dq_real b))) with (q0 (q_mul (dq_real a) (dq_real b))).
    replace (Ropp 1) with (-1) by lra.
    destruct (Rltb_spec (q0 (q_mul (dq_real a) (dq_real b))) 0) as [N|N];
      destruct (Rlt_dec (q0 (q_mul (dq_real a) (dq_real b))) 0) as [N'|N']; try contradiction; reflexivity. }
  assert (E2 : dq_screw_lerp (up_dq a) (up_dq b) (Some tau)
     = (j <- dq_inverse (up_dq s) ;; Ok (dq_mul (up_dq s) (dq_pow (dq_mul j (up_dq b)) (Some tau))))).
  { unfold dq_screw_lerp, s, lerp_start. 
    change (q_real (q_mul (dq_real (up_dq a)) (dq_real (up_dq b)))) with (Some (q0 (q_mul (dq_real a) (dq_real b)))).
    cbn [ltb zero E_POrd E_Num eb R_POrd R_Num one neg E_Signed R_Signed e1].
    replace (Ropp 1) with (-1) by lra.
    destruct (Rltb_spec (q0 (q_mul (dq_real a) (dq_real b))) 0) as [N|N];
      destruct (Rlt_dec (q0 (q_mul (dq_real a) (dq_real b))) 0) as [N'|N']; try contradiction; reflexivity. }
  rewrite E1, E2, (c73_dual_inverse OK), I. cbn [up_o bind]. rewrite e_dq_mul. clear E1 E2.
  assert (W : q0 (dq_real (dq_mul i b)) = -1 <-> qval (dq_real b) = qval (q_neg (dq_real s))).
  { rewrite <- quat_antipode by (apply Us || apply Ub).
    apply dqval_eq in V as [V _]. apply qval_parts in V as [V0 V1].
    change (dq_real (dq_mul i b)) with (q_mul (dq_real i) (dq_real b)).
    replace (q0 (q_mul (dq_real i) (dq_real b))) with (q0 (q_mul (q_conj (dq_real s)) (dq_real b))); [reflexivity| ].
    unfold q_mul, q_new. cbn [q0 q]. rewrite V0, V1. reflexivity. }
  destruct (Req_dec (q0 (dq_real (dq_mul i b))) (-1)) as [Y|N]; [right|left].
  - split; [apply W; exact Y| ]. eexists. split; [reflexivity| ].
    apply (pow_undefined (dq_mul i b) tau) in Y. revert Y.
    destruct (dq_pow (up_dq (dq_mul i b)) (Some tau)) as [ [p0 (p1 & p2 & p3 & []) pf] pd pn].
    cbn [q_real_ q ix0 ahd fst]. intros ->. cbn. destruct p0; reflexivity.
  - split; [rewrite <- W; exact N| ]. rewrite (pow_total (dq_mul i b) tau N Ur), e_dq_mul. reflexivity.
Qed.

Lemma c74_screw_lerp_partial : forall a b tau, unit_dq a -> unit_dq b ->
  dq_screw_lerp (up_dq a) (up_dq b) (Some tau) = up_o up_dq (dq_screw_lerp a b tau)
  <-> qval (dq_real b) <> qval (q_neg (dq_real (lerp_start a b))).
Proof.
  intros a b tau Ua Ub. destruct (lerp_cases a b tau Ua Ub) as [ [N E]|[Y (r & E & Z)] ]; [tauto| ].
  split; [ |contradiction]. intros X _. rewrite E in X. 
  destruct (dq_screw_lerp a b tau) as [x| ]; [ |discriminate]. cbn [up_o] in X.
  apply (f_equal (fun o => match o with Ok d => q0 (dq_real d) | Panic => None end)) in X. cbv beta iota in X. discriminate (eq_trans (eq_sym Z) X).
Qed.

(** a pose turned by half a turn, interpolated to itself: the relative motion gets
    the scalar part -1, and its axis is 0 / 0 *)
Lemma c74_screw_lerp_refuted : exists a : DualQuaternion R, unit_dq a /\ forall tau, exists r,
  dq_screw_lerp (up_dq a) (up_dq a) (Some tau) = Ok r /\ q0 (dq_real r) = None.
Proof.
  set (a := mkDQ (q_new_from 0 1 0 0) q_zero false : DualQuaternion R). exists a.
  assert (U : unit_dq a) by (split; unfold a; rlazy; field). split; [exact U| ]. intros tau.
  destruct (lerp_cases a a tau U U) as [ [N _]|[_ H] ]; [exfalso; apply N|exact H].
  unfold lerp_start. destruct (Rlt_dec (q0 (q_mul (dq_real a) (dq_real a))) 0) as [L|L].
  - unfold a. rlazy. rpairs; ring.
  - exfalso. apply L. unfold a. lazy -[Rplus Rmult Ropp Rminus Rdiv Rinv IZR Rlt]. lra.
Qed.

Lemma c74_pow_refuted : exists a : DualQuaternion R, unit_dq a
  /\ forall x, ix0 (q (dq_real (dq_pow (up_dq a) (Some x)))) = None.
Proof.
  exists (dq_new (q_new_from (-1) 0 0 0) q_zero). split; [split; rlazy; field| ].
  intros x. apply pow_undefined. reflexivity.
Qed.

(** half turns *)
Lemma c74_screw_parameters_refuted : exists a : DualQuaternion R, unit_dq a
  /\ dq_get_screw_parameters (up_dq a) <> up_screw (dq_get_screw_parameters a).
Proof.
  exists (dq_new (q_new_from 0 1 0 0) q_zero). split; [split; rlazy; field| ].
  rewrite (c74_screw_parameters_partial OK). pose proof (eps_small K OK). pose proof PI2_1.
  intros [ [X _]|X].
  - apply X. split; [reflexivity| ]. replace (v3_norm2 _) with (sqrt 1) by (rlazy; f_equal; ring). rewrite sqrt_1. lra.
  - revert X. unfold q_get_angle. 
    replace (v3_norm2 _) with (sqrt 1) by (rlazy; f_equal; ring). rewrite sqrt_1.
    change (q0 (dq_real (dq_new (q_new_from 0 1 0 0) q_zero))) with 0. cbn [fatan2 R_Float mul add one R_Num].
    unfold Ratan2. destruct (Rlt_dec 0 0); [lra| ]. destruct (Rlt_dec 0 1); [ |lra].
    intros X. apply Rabs_def2 in X. lra.
Qed.

Lemma c74_log6_refuted : exists A : M44 R, SE3 A /\ matrix_log6 (up_m (n:=4) A) <> up_m (n:=4) (matrix_log6 A).
Proof.
  set (A := homogeneous_from_rotation (rotx PI) v3_zeros : M44 R).
  assert (H : SE3 A).
  { unfold A, rotx, sin_cos. cbn [fsin fcos R_Float]. rewrite sin_PI, cos_PI. 
    split; [split; [ |split]|repeat split]; rlazy; try (rpairs; ring); try ring. }
  exists A. split; [exact H| ]. rewrite (c74_log6_partial A H). intros N. apply N. unfold rot_angle.
  replace (_ / 2) with (-1); [apply acos_m1| ].
  unfold A, rotx, sin_cos. cbn [fsin fcos R_Float]. rewrite sin_PI, cos_PI. rlazy. field.
Qed.
End Defined.

(** ** Cases *)
#[local] Existing Instance f64_consts.

Lemma rotx_SO3 a : SO3 (rotx a : M33 R).
Proof.
  unfold rotx, sin_cos. cbn [fsin fcos R_Float]. pose proof (sin2_cos2 a) as H. unfold Rsqr in H.
  split; [ |split]; rlazy; try (rpairs; lra); lra.
Qed.

(** a rotation by one radian: the logarithms are defined *)
Example C73_log_example : matrix_log (up_m (n:=3) (rotx 1)) = up_m (n:=3) (matrix_log (rotx 1 : M33 R)).
Proof. apply (c73_log f64_consts_ok), rotx_SO3. Qed.

Example C74_log6_example : let A := homogeneous_from_rotation (rotx 1) [| 1; 2; 3 |] : M44 R in
  matrix_log6 (up_m (n:=4) A) = up_m (n:=4) (matrix_log6 A).
Proof.
  intros A. apply (c74_log6_partial f64_consts_ok).
  - split; [ |repeat split]. change (rot_of A) with (rotx 1 : M33 R). apply rotx_SO3.
  - change (rot_of A) with (rotx 1 : M33 R). unfold rot_angle.
    replace ((mfun (rotx 1) 0 0 + mfun (rotx 1) 1 1 + mfun (rotx 1) 2 2 - 1) / 2) with (cos 1).
    + rewrite acos_cos; pose proof PI2_1; lra.
    + unfold rotx, sin_cos. cbn [fsin fcos R_Float]. generalize (cos 1) (sin 1). intros c s. rlazy. field.
Qed.

Example C74_pow_example : dq_pow (up_dq (dq_new (q_new_from (3/5) (4/5) 0 0) q_zero)) (Some 2)
  = up_dq (dq_pow (dq_new (q_new_from (3/5) (4/5) 0 0) q_zero) 2).
Proof. apply (c74_pow_partial f64_consts_ok). change (q0 _) with (3/5). lra. Qed.

Example C74_screw_lerp_example : forall tau,
  dq_screw_lerp (up_dq dq_one) (up_dq (dq_new (q_new_from (3/5) (4/5) 0 0) q_zero)) (Some tau)
  = up_o up_dq (dq_screw_lerp dq_one (dq_new (q_new_from (3/5) (4/5) 0 0) q_zero) tau).
Proof.
  intros tau. apply (c74_screw_lerp_partial f64_consts_ok); try (split; rlazy; field).
  intros X. apply (f_equal fst) in X. revert X. unfold lerp_start. destruct Rlt_dec as [L|L].
  - exfalso. revert L. lazy -[Rplus Rmult Ropp Rminus Rdiv Rinv IZR Rlt]. lra.
  - lazy -[Rplus Rmult Ropp Rminus Rdiv Rinv IZR Rlt]. intros X. injection X. lra.
Qed.

Example C74_screw_parameters_example :
  dq_get_screw_parameters (up_dq (dq_new (q_new_from (3/5) (4/5) 0 0) q_zero))
  = up_screw (dq_get_screw_parameters (dq_new (q_new_from (3/5) (4/5) 0 0) q_zero)).
Proof.
  apply (c74_screw_parameters_partial f64_consts_ok). left.
  change (q0 (dq_real (dq_new (q_new_from (3/5) (4/5) 0 0) q_zero))) with (3/5). split; intros [X _]; lra.
Qed.

Example C73_axis_angle6_example :
  axis_angle6 (up_v (n:=6) [| 0; 0; 0; 3; 4; 0 |])
  = (up_v (n:=6) (fst (axis_angle6 [| 0; 0; 0; 3; 4; 0 |])), Some (snd (axis_angle6 [| 0; 0; 0; 3; 4; 0 |]))).
Proof.
  apply (c73_axis_angle6 f64_consts_ok). right. unfold norm2. cbn.
  replace (0 * 0 + _) with (5 * 5) by ring. rewrite sqrt_square; lra.
Qed.
