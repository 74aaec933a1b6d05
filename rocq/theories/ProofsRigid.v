(** * ProofsRigid: C35, C36, C42, C43, C47 over every commutative ring

    The polynomial laws of dual quaternions, homogeneous matrices, skew/twist
    encodings and the adjoint representation. *)

From Coq Require Import List Arith Lia Bool Ring ZArith.
From Verif Require Import Base Scalar Vec Mat2 Mat3 Mat4 Mat6 Slices MatLoops MatOps Quat Transf
  DualQuat RingDet Spec Entries DetEntries InstZ ProofsRing ProofsQuat.
Import ListNotations.
Open Scope sc_scope.

Section Spec.
Context {T : Type} {nT : Num T} {sT : Signed T}.

(** components of a dual quaternion *)
Definition dqval (a : DualQuaternion T) := (qval (dq_real a), qval (dq_dual a)).

(** unit dual quaternions: |r|^2 = 1 and r . d = 0 *)
Definition unit_dq (a : DualQuaternion T) : Prop :=
  unit_quat (dq_real a) /\ q_dot (dq_real a) (dq_dual a) = zero.

(** rotation block and translation column of a 4x4 matrix *)
Definition rot_of (A : M44 T) : M33 T :=
  [| [| mfun A 0 0; mfun A 0 1; mfun A 0 2 |];
     [| mfun A 1 0; mfun A 1 1; mfun A 1 2 |];
     [| mfun A 2 0; mfun A 2 1; mfun A 2 2 |] |].
Definition trans_of (A : M44 T) : V3 T := [| mfun A 0 3; mfun A 1 3; mfun A 2 3 |].

(** rigid motions and their Lie algebra *)
Definition SE3 (A : M44 T) : Prop :=
  SO3 (rot_of A) /\ mfun A 3 0 = zero /\ mfun A 3 1 = zero /\ mfun A 3 2 = zero
  /\ mfun A 3 3 = one.
Definition skew3 (A : M33 T) : Prop := forall i j, i < 3 -> j < 3 -> mfun A i j = - mfun A j i.
Definition zero_diag3 (A : M33 T) : Prop := forall i, i < 3 -> mfun A i i = zero.
Definition se3 (A : M44 T) : Prop :=
  skew3 (rot_of A) /\ zero_diag3 (rot_of A)
  /\ mfun A 3 0 = zero /\ mfun A 3 1 = zero /\ mfun A 3 2 = zero /\ mfun A 3 3 = zero.

Definition point (p : V3 T) : V4 T := [| vfun p 0; vfun p 1; vfun p 2; one |].

(** twists as pairs (angular part, linear part) *)
Definition tw_w (x : V6 T) : V3 T := [| vfun x 0; vfun x 1; vfun x 2 |].
Definition tw_v (x : V6 T) : V3 T := [| vfun x 3; vfun x 4; vfun x 5 |].
Definition tw (w v : V3 T) : V6 T :=
  [| vfun w 0; vfun w 1; vfun w 2; vfun v 0; vfun v 1; vfun v 2 |].

(** cofactor matrix *)
Definition cof (A : M33 T) : M33 T :=
  let a := mfun A in
  [| [| a 1 1 * a 2 2 - a 1 2 * a 2 1; a 1 2 * a 2 0 - a 1 0 * a 2 2; a 1 0 * a 2 1 - a 1 1 * a 2 0 |];
     [| a 2 1 * a 0 2 - a 2 2 * a 0 1; a 2 2 * a 0 0 - a 2 0 * a 0 2; a 2 0 * a 0 1 - a 2 1 * a 0 0 |];
     [| a 0 1 * a 1 2 - a 0 2 * a 1 1; a 0 2 * a 1 0 - a 0 0 * a 1 2; a 0 0 * a 1 1 - a 0 1 * a 1 0 |] |].
End Spec.

Ltac rdes := repeat match goal with
  | a : DualQuaternion _ |- _ => destruct a as [? ? ?]
  | v : V6 _ |- _ => destruct v as (? & ? & ? & ? & ? & ? & [])
  | m : M44 _ |- _ => let a := fresh "r" in let b := fresh "r" in let c := fresh "r" in
      let d := fresh "r" in destruct m as (a & b & c & d & []);
      destruct a as (? & ? & ? & ? & []); destruct b as (? & ? & ? & ? & []);
      destruct c as (? & ? & ? & ? & []); destruct d as (? & ? & ? & ? & [])
  end; qdes.
Ltac rpairs := repeat match goal with
  | |- (_, _) = (_, _) => refine (f_equal2 pair _ _)
  | |- mkQ _ _ _ = mkQ _ _ _ => refine (f_equal3 mkQ _ _ _)
  | |- mkDQ _ _ _ = mkDQ _ _ _ => refine (f_equal3 mkDQ _ _ _)
  | |- Ok _ = Ok _ => refine (f_equal Ok _)
  end; try reflexivity.

Section WithRing.
Context {T : Type} {nT : Num T} {sT : Signed T}.
Variable RT : RingLaws T.
Let RT' : ring_theory zero one add mul sub neg (@eq T) := RT.
Add Ring TheRing : RT'.
Ltac rring := intros; rdes; qlazy; rpairs; ring.

(** ** C35: the algebra of dual quaternions *)

(** the product is that of dual numbers with Hamilton coefficients *)
Lemma c35_mul_spec : forall a b : DualQuaternion T,
  qval (dq_real (dq_mul a b)) = hamilton (qval (dq_real a)) (qval (dq_real b))
  /\ qval (dq_dual (dq_mul a b))
     = (let '(x0, x1, x2, x3) := hamilton (qval (dq_real a)) (qval (dq_dual b)) in
        let '(y0, y1, y2, y3) := hamilton (qval (dq_dual a)) (qval (dq_real b)) in
        (x0 + y0, x1 + y1, x2 + y2, x3 + y3)).
Proof. intros; split; rring. Qed.

Lemma c35_mul_assoc : forall a b c : DualQuaternion T,
  dq_mul (dq_mul a b) c = dq_mul a (dq_mul b c).
Proof. rring. Qed.

Lemma c35_mul_one : forall a : DualQuaternion T,
  dqval (dq_mul dq_one a) = dqval a /\ dqval (dq_mul a dq_one) = dqval a.
Proof. intros; split; rring. Qed.

Lemma c35_distr : forall a b c : DualQuaternion T,
  dq_mul a (dq_add b c) = dq_add (dq_mul a b) (dq_mul a c)
  /\ dq_mul (dq_add a b) c = dq_add (dq_mul a c) (dq_mul b c).
Proof. intros; split; rring. Qed.

Lemma c35_additive_group : forall a b c : DualQuaternion T,
  dq_add (dq_add a b) c = dq_add a (dq_add b c) /\ dq_add a b = dq_add b a
  /\ dqval (dq_add a dq_zero) = dqval a /\ dqval (dq_add a (dq_neg a)) = dqval dq_zero
  /\ dq_sub a b = dq_add a (dq_neg b).
Proof. intros; repeat split; rring. Qed.

Lemma c35_scale : forall (a b : DualQuaternion T) s,
  dq_mul (dq_scale a s) b = dq_scale (dq_mul a b) s
  /\ dq_mul a (dq_scale b s) = dq_scale (dq_mul a b) s
  /\ dqval (dq_scale a s) = dqval (dq_mul (dq_new (q_new_real s) q_zero) a).
Proof. intros; repeat split; rring. Qed.

Lemma c35_epsilon : dqval (dq_mul (dq_new q_zero q_one) (dq_new q_zero q_one))
  = dqval (@dq_zero T _).
Proof. rring. Qed.

Lemma c35_conj_mul : forall a b : DualQuaternion T,
  dq_conj (dq_mul a b) = dq_mul (dq_conj b) (dq_conj a)
  /\ dqval (dq_conj_as_dual (dq_mul a b)) = dqval (dq_mul (dq_conj_as_dual a) (dq_conj_as_dual b))
  /\ dqval (dq_conj_combined (dq_mul a b))
     = dqval (dq_mul (dq_conj_combined b) (dq_conj_combined a)).
Proof. intros; repeat split; rring. Qed.

Lemma c35_conj_involutive : forall a : DualQuaternion T,
  dqval (dq_conj (dq_conj a)) = dqval a
  /\ dqval (dq_conj_as_dual (dq_conj_as_dual a)) = dqval a
  /\ dqval (dq_conj_combined a) = dqval (dq_conj (dq_conj_as_dual a))
  /\ dqval (dq_conj_combined (dq_conj_combined a)) = dqval a.
Proof. intros; repeat split; rring. Qed.

Lemma c35_norm : forall a : DualQuaternion T,
  dqval (dq_norm a) =
  ((qnormsq (dq_real a), zero, zero, zero),
   ((one + one) * q_dot (dq_real a) (dq_dual a), zero, zero, zero)).
Proof. rring. Qed.

Lemma c35_norm_mul : forall a b : DualQuaternion T,
  dqval (dq_norm (dq_mul a b)) = dqval (dq_mul (dq_norm a) (dq_norm b)).
Proof. rring. Qed.

(** unit dual quaternions are exactly those of norm one (up to 2 being regular),
    and they are closed under products *)
Lemma c35_unit_mul : forall a b : DualQuaternion T, unit_dq a -> unit_dq b -> unit_dq (dq_mul a b).
Proof.
  intros a b [A1 A2] [B1 B2]. unfold unit_dq, unit_quat in *.
  assert (E1 : qnormsq (dq_real (dq_mul a b)) = qnormsq (dq_real a) * qnormsq (dq_real b)) by rring.
  assert (E2 : q_dot (dq_real (dq_mul a b)) (dq_dual (dq_mul a b))
               = qnormsq (dq_real a) * q_dot (dq_real b) (dq_dual b)
                 + qnormsq (dq_real b) * q_dot (dq_real a) (dq_dual a)) by rring.
  rewrite E1, E2, A1, A2, B1, B2. split; ring.
Qed.

Lemma c35_unit_conj : forall a : DualQuaternion T, unit_dq a ->
  dqval (dq_mul a (dq_conj a)) = dqval dq_one /\ dqval (dq_mul (dq_conj a) a) = dqval dq_one.
Proof.
  intros a [A1 A2]. unfold unit_quat in A1.
  assert (E : dqval (dq_mul (dq_conj a) a) = dqval (dq_norm a)) by rring.
  rewrite E. change (dq_mul a (dq_conj a)) with (dq_norm a). rewrite c35_norm, A1, A2.
  split; rring.
Qed.

(** ** C36: the action on points *)

(** [transform_point] never adds the translation: its result depends on the
    rotation part only. *)
Lemma c36_transform_point_rotates : forall (a : DualQuaternion T) p,
  dq_transform_point a p = sandwich (dq_real a) p.
Proof. rring. Qed.

Lemma c36_to_homogeneous_mul : forall a b : DualQuaternion T,
  unit_quat (dq_real b) ->
  dq_to_homogeneous (dq_mul a b) = m44_mul (dq_to_homogeneous a) (dq_to_homogeneous b).
Proof.
  intros a b H.
  assert (E : dq_to_homogeneous (dq_mul a b)
    = homogeneous_from_rotation (m33_mul (q_to_rotation (dq_real a)) (q_to_rotation (dq_real b)))
        (v3_add (m33_mul_v (q_to_rotation (dq_real a)) (dq_get_translation b))
                (v3_scale (dq_get_translation a) (qnormsq (dq_real b))))) by rring.
  rewrite E, H. unfold dq_to_homogeneous, dq_to_rotation_translation.
  generalize (q_to_rotation (dq_real a)) (q_to_rotation (dq_real b))
    (dq_get_translation a) (dq_get_translation b). clear a b H E. rring.
Qed.

Lemma c36_to_homogeneous_SE3 : forall a : DualQuaternion T,
  unit_quat (dq_real a) -> SE3 (dq_to_homogeneous a).
Proof.
  intros a H. split; [ | repeat split].
  change (SO3 (q_to_rotation (dq_real a))). now apply (c27_to_rotation_SO3 RT).
Qed.

Lemma c36_to_homogeneous_point : forall (a : DualQuaternion T) p,
  unit_quat (dq_real a) ->
  m44_mul_v (dq_to_homogeneous a) (point p)
  = point (v3_add (q_mul_v (dq_real a) p) (dq_get_translation a)).
Proof.
  intros a p H. rewrite <- (c27_to_rotation_action RT) by assumption.
  unfold dq_to_homogeneous, dq_to_rotation_translation.
  generalize (q_to_rotation (dq_real a)) (dq_get_translation a). clear a H. rring.
Qed.

Lemma c36_transform_point_compose_partial : forall (a b : DualQuaternion T) p,
  dq_transform_point (dq_mul a b) p = dq_transform_point a (dq_transform_point b p).
Proof. rring. Qed.

(** ** C43: skew and twist encodings *)

Lemma c43_skew_round_trip : forall v : V3 T, skew_to_vec (skew_from_vec v) = v.
Proof. rring. Qed.

Lemma c43_skew_cross : forall v w : V3 T, m33_mul_v (skew_from_vec v) w = v3_cross v w.
Proof. rring. Qed.

Lemma c43_skew_antisymmetric : forall v : V3 T,
  skew3 (skew_from_vec v) /\ zero_diag3 (skew_from_vec v).
Proof.
  intros v; split; [intros i j Hi Hj; all_lt i Hi; all_lt j Hj|intros i Hi; all_lt i Hi];
  rring.
Qed.

Lemma c43_skew_from_to : forall A : M33 T, skew3 A -> zero_diag3 A ->
  skew_from_vec (skew_to_vec A) = A.
Proof.
  intros A H D. apply mfun_ext. intros i j Hi Hj.
  all_lt i Hi; all_lt j Hj;
  match goal with |- _ = mfun A ?i ?j =>
    first [change (mfun A i j = mfun A i j); reflexivity
          |rewrite (D i) by lia; reflexivity
          |rewrite (H i j) by lia; reflexivity] end.
Qed.

Lemma c43_skew_linear : forall (v w : V3 T) s,
  skew_from_vec (v3_add v w) = m33_add (skew_from_vec v) (skew_from_vec w)
  /\ skew_from_vec (v3_scale v s) = m33_scale (skew_from_vec v) s.
Proof. intros; split; rring. Qed.

(** the Lie bracket is the cross product *)
Lemma c43_skew_bracket : forall v w : V3 T,
  m33_sub (m33_mul (skew_from_vec v) (skew_from_vec w)) (m33_mul (skew_from_vec w) (skew_from_vec v))
  = skew_from_vec (v3_cross v w).
Proof. rring. Qed.

Lemma c43_twist_round_trip : forall x : V6 T, se3_to_twist (twist_to_se3 x) = x.
Proof. rring. Qed.

Lemma c43_twist_se3 : forall x : V6 T, se3 (twist_to_se3 x).
Proof.
  intros x. split; [ |split].
  - intros i j Hi Hj; all_lt i Hi; all_lt j Hj; rring.
  - intros i Hi; all_lt i Hi; rring.
  - repeat split.
Qed.

Lemma c43_se3_round_trip : forall A : M44 T, se3 A -> twist_to_se3 (se3_to_twist A) = A.
Proof.
  intros A (S & D & H0 & H1 & H2 & H3).
  pose proof (c43_skew_from_to (rot_of A) S D) as E.
  assert (R : forall i j, i < 3 -> j < 3 -> mfun (rot_of A) i j = mfun A i j).
  { intros i j Hi Hj; all_lt i Hi; all_lt j Hj; reflexivity. }
  apply mfun_ext. intros i j Hi Hj.
  destruct (Nat.eq_dec i 3) as [->|Ni].
  { all_lt j Hj; symmetry; assumption. }
  destruct (Nat.eq_dec j 3) as [->|Nj].
  { all_lt i Hi; try contradiction; reflexivity. }
  rewrite <- R, <- E by lia. clear - Hi Hj Ni Nj.
  all_lt i Hi; try contradiction; all_lt j Hj; try contradiction; reflexivity.
Qed.

Lemma c43_se3_parts : forall (A : M33 T) v, se3_get_parts (se3_from_parts A v) = (A, v).
Proof. rring. Qed.

Lemma c43_skew_scalar : forall x : T, vex_m22 (skew_scalar x) = x
  /\ m22_transpose (skew_scalar x) = m22_neg (skew_scalar x).
Proof. intros; split; rring. Qed.

(** the planar augmented skew matrix and the 6-vector one *)
Lemma c43_skew_v6 : forall x : V6 T,
  skew_v6 x = se3_from_parts (skew_from_vec [| vfun x 3; vfun x 4; vfun x 5 |])
                             [| vfun x 0; vfun x 1; vfun x 2 |].
Proof. rring. Qed.

(** [skew_v6] takes (v, w), [twist_to_se3] takes (w, v) *)
Lemma c43_skew_v6_twist : forall x : V6 T,
  skew_v6 [| vfun x 3; vfun x 4; vfun x 5; vfun x 0; vfun x 1; vfun x 2 |] = twist_to_se3 x.
Proof. rring. Qed.

Lemma c43_skew_aug : forall v : V3 T,
  skew_from_vec_aug v = [| [| zero; - vfun v 2; vfun v 0 |];
                           [| vfun v 2; zero; vfun v 1 |];
                           [| zero; zero; zero |] |].
Proof. rring. Qed.

(** ** Rotations: cofactors *)

Lemma m33_assoc (A B C : M33 T) : m33_mul (m33_mul A B) C = m33_mul A (m33_mul B C).
Proof. rring. Qed.
Lemma m33_id_r (A : M33 T) : m33_mul A m33_identity = A.
Proof. rring. Qed.
Lemma m33_id_l (A : M33 T) : m33_mul m33_identity A = A.
Proof. rring. Qed.
Lemma m33_transpose_mul (A B : M33 T) :
  m33_transpose (m33_mul A B) = m33_mul (m33_transpose B) (m33_transpose A).
Proof. rring. Qed.
Lemma m33_transpose_inv (A : M33 T) : m33_transpose (m33_transpose A) = A.
Proof. rring. Qed.
Lemma m33_mul_v_mul (A B : M33 T) v : m33_mul_v (m33_mul A B) v = m33_mul_v A (m33_mul_v B v).
Proof. rring. Qed.
Lemma m33_id_v (v : V3 T) : m33_mul_v m33_identity v = v.
Proof. rring. Qed.

Lemma cof_adj (A : M33 T) :
  m33_mul (m33_transpose (cof A)) A = m33_scale m33_identity (m33_det A).
Proof. rring. Qed.

Lemma SO3_cof (A : M33 T) : SO3 A -> cof A = A.
Proof.
  intros (H1 & H2 & H3). rewrite <- (m33_det_ldet RT) in H3.
  pose proof (cof_adj A) as E. rewrite H3 in E.
  assert (E1 : m33_scale m33_identity one = m33_identity (T := T)) by rring. rewrite E1 in E.
  assert (E2 : m33_transpose (cof A) = m33_transpose A).
  { rewrite <- (m33_id_r (m33_transpose (cof A))), <- H2, <- m33_assoc, E. apply m33_id_l. }
  rewrite <- (m33_transpose_inv (cof A)), E2. apply m33_transpose_inv.
Qed.

Lemma SO3_mul (A B : M33 T) : SO3 A -> SO3 B -> SO3 (m33_mul A B).
Proof.
  intros (A1 & A2 & A3) (B1 & B2 & B3). unfold SO3.
  rewrite <- (m33_det_ldet RT) in *. repeat split.
  - rewrite m33_transpose_mul, m33_assoc, <- (m33_assoc _ A B), A1, m33_id_l. exact B1.
  - rewrite m33_transpose_mul, m33_assoc, <- (m33_assoc B), B2, m33_id_l. exact A2.
  - assert (E : m33_det (m33_mul A B) = m33_det A * m33_det B) by rring.
    rewrite E, A3, B3. ring.
Qed.

Lemma SO3_transpose (A : M33 T) : SO3 A -> SO3 (m33_transpose A).
Proof.
  intros (A1 & A2 & A3). unfold SO3.
  rewrite <- (m33_det_ldet RT) in *. rewrite m33_transpose_inv. repeat split; auto.
  rewrite <- A3. rring.
Qed.

(** rotations preserve the cross product *)
Lemma SO3_cross (A : M33 T) u v : SO3 A ->
  m33_mul_v A (v3_cross u v) = v3_cross (m33_mul_v A u) (m33_mul_v A v).
Proof.
  intros H. rewrite <- (SO3_cof A H) at 1. clear H. rring.
Qed.

Lemma SO3_skew (A : M33 T) v : SO3 A ->
  m33_mul (m33_mul A (skew_from_vec v)) (m33_transpose A) = skew_from_vec (m33_mul_v A v).
Proof.
  intros H. rewrite <- (SO3_cof A H) at 3. clear H. rring.
Qed.

(** ** C42: homogeneous transformations *)

Lemma c42_parts_round_trip : forall (A : M33 T) p,
  get_parts_raw (homogeneous_from_rotation A p) = (A, p).
Proof. rring. Qed.

Lemma c42_parts_SE3 : forall A : M44 T, SE3 A ->
  homogeneous_from_rotation (fst (get_parts_raw A)) (snd (get_parts_raw A)) = A
  /\ get_parts_raw A = (rot_of A, trans_of A).
Proof.
  intros A (_ & H0 & H1 & H2 & H3). split; [ |rring].
  apply mfun_ext. intros i j Hi Hj.
  all_lt i Hi; try (all_lt j Hj; reflexivity).
  all_lt j Hj; symmetry; assumption.
Qed.

Lemma c42_homogeneous_SE3 : forall (A : M33 T) p, SO3 A -> SE3 (homogeneous_from_rotation A p).
Proof. intros A p H. split; [ |repeat split]. qdes. exact H. Qed.

Lemma SE3_form (A : M44 T) : SE3 A -> A = homogeneous_from_rotation (rot_of A) (trans_of A).
Proof.
  intros H. pose proof (c42_parts_SE3 A H) as [E F]. rewrite F in E. symmetry. exact E.
Qed.

Lemma hom_mul (A B : M33 T) p q :
  m44_mul (homogeneous_from_rotation A p) (homogeneous_from_rotation B q)
  = homogeneous_from_rotation (m33_mul A B) (v3_add (m33_mul_v A q) p).
Proof. rring. Qed.

Lemma c42_SE3_mul : forall A B : M44 T, SE3 A -> SE3 B -> SE3 (m44_mul A B).
Proof.
  intros A B HA HB. rewrite (SE3_form A HA), (SE3_form B HB), hom_mul.
  apply c42_homogeneous_SE3, SO3_mul; [apply HA|apply HB].
Qed.

Lemma c42_SE3_identity : SE3 (m44_identity (T := T)).
Proof.
  split; [ |repeat split]. unfold SO3. rewrite <- (m33_det_ldet RT). repeat split; rring.
Qed.

Lemma hom_inverse (A : M33 T) p : homogeneous_inverse (homogeneous_from_rotation A p)
  = homogeneous_from_rotation (m33_transpose A) (m33_mul_v (m33_neg (m33_transpose A)) p).
Proof. rring. Qed.

Lemma c42_inverse : forall A : M44 T, SE3 A ->
  m44_mul A (homogeneous_inverse A) = m44_identity
  /\ m44_mul (homogeneous_inverse A) A = m44_identity
  /\ SE3 (homogeneous_inverse A).
Proof.
  intros A H. pose proof H as ((A1 & A2 & A3) & _).
  rewrite (SE3_form A H), hom_inverse. revert A1 A2 A3.
  generalize (rot_of A) (trans_of A). clear A H. intros A p A1 A2 A3.
  assert (E : homogeneous_from_rotation m33_identity v3_zeros = m44_identity (T := T)) by rring.
  rewrite !hom_mul, A1, A2, <- E. split; [ |split].
  - f_equal. assert (F : m33_mul_v A (m33_mul_v (m33_neg (m33_transpose A)) p)
      = v3_neg (m33_mul_v (m33_mul A (m33_transpose A)) p)) by rring.
    rewrite F, A2. rring.
  - f_equal. rring.
  - apply c42_homogeneous_SE3, SO3_transpose. repeat split; assumption.
Qed.

Lemma c42_point : forall A p, SE3 A ->
  m44_mul_v A (point p) = point (v3_add (m33_mul_v (rot_of A) p) (trans_of A)).
Proof.
  intros A p H. rewrite (SE3_form A H) at 1. generalize (rot_of A) (trans_of A). clear A H. rring.
Qed.

(** ** C47: the adjoint representation *)

Lemma adjoint_total (A : M44 T) : exists B, adjoint A = Ok B.
Proof. rdes. qlazy. eexists. reflexivity. Qed.

Lemma tw_w_tw (w v : V3 T) : tw_w (tw w v) = w.
Proof. now destruct w as (? & ? & ? & []). Qed.
Lemma tw_v_tw (w v : V3 T) : tw_v (tw w v) = v.
Proof. now destruct v as (? & ? & ? & []). Qed.

(** the 6x6 block matrix [R 0; [p]R R] *)
Lemma adjoint_entries (A : M44 T) B : adjoint A = Ok B ->
  forall x : V6 T, m66_mul_v B x =
    tw (m33_mul_v (rot_of A) (tw_w x))
       (v3_add (v3_cross (trans_of A) (m33_mul_v (rot_of A) (tw_w x)))
               (m33_mul_v (rot_of A) (tw_v x))).
Proof.
  intros H x. revert H. rdes. qlazy. intros H. injection H; intros; subst; rpairs; ring.
Qed.

(** a 6x6 matrix is determined by its action *)
Lemma m66_ext_v (A B : M66 T) : (forall x, m66_mul_v A x = m66_mul_v B x) -> A = B.
Proof.
  intros H.
  assert (C : forall j, j < 6 -> forall i, i < 6 -> mfun A i j = mfun B i j).
  { intros j Hj i Hi.
    pose (e := [| delta 0 j; delta 1 j; delta 2 j; delta 3 j; delta 4 j; delta 5 j |] : V6 T).
    assert (G : forall M : M66 T, vfun (m66_mul_v M e) i = mfun M i j).
    { intros M. rewrite (d_mul_v_entry RT D6 M e i Hi : vfun (m66_mul_v M e) i = _).
      rewrite <- (sumn_delta_r RT 6 j (mfun M i)) by exact Hj.
      apply sumn_ext. intros k Hk. f_equal. clear - Hk. all_lt k Hk; reflexivity. }
    rewrite <- !G, H. reflexivity. }
  apply (mfun_ext 6). intros i j Hi Hj. now apply C.
Qed.

Lemma m66_mul_v_mul (A B : M66 T) x : m66_mul_v (m66_mul A B) x = m66_mul_v A (m66_mul_v B x).
Proof. exact (c02_mul_v_mul RT D6 A B x). Qed.

Lemma c47_adjoint_total : forall A : M44 T, adjoint A <> Panic.
Proof. intros A. destruct (adjoint_total A) as [B ->]. discriminate. Qed.

Lemma c47_adjoint_identity : adjoint (m44_identity (T := T)) = Ok m66_identity.
Proof. qlazy. rpairs; ring. Qed.

Lemma c47_adjoint_mul : forall A B : M44 T, SE3 A -> SE3 B ->
  exists X Y Z, adjoint A = Ok X /\ adjoint B = Ok Y /\ adjoint (m44_mul A B) = Ok Z
  /\ Z = m66_mul X Y.
Proof.
  intros A B HA HB.
  destruct (adjoint_total A) as [X EX], (adjoint_total B) as [Y EY],
    (adjoint_total (m44_mul A B)) as [Z EZ].
  exists X, Y, Z. repeat (split; [assumption| ]). apply m66_ext_v. intros x.
  rewrite m66_mul_v_mul, (adjoint_entries _ _ EX), (adjoint_entries _ _ EY), (adjoint_entries _ _ EZ).
  assert (F : rot_of (m44_mul A B) = m33_mul (rot_of A) (rot_of B)
              /\ trans_of (m44_mul A B) = v3_add (m33_mul_v (rot_of A) (trans_of B)) (trans_of A)).
  { rewrite (SE3_form A HA), (SE3_form B HB) at 1 3. rewrite hom_mul.
    generalize (rot_of A) (trans_of A) (rot_of B) (trans_of B). clear. intros. qdes. split; reflexivity. }
  destruct F as [-> ->]. destruct HA as [HA _]. pose proof (SO3_cross (rot_of A)) as C.
  revert C HA. generalize (rot_of A) (trans_of A) (rot_of B) (trans_of B).
  clear HB EX EY EZ X Y Z A B. intros A p B q C HA.
  rewrite !tw_w_tw, !tw_v_tw, !m33_mul_v_mul.
  generalize (m33_mul_v B (tw_w x)) (m33_mul_v B (tw_v x)). intros Bw Bv.
  assert (L : forall y z, m33_mul_v A (v3_add y z) = v3_add (m33_mul_v A y) (m33_mul_v A z)).
  { clear - RT'. rring. }
  rewrite L, C by assumption. f_equal.
  generalize (m33_mul_v A q) (m33_mul_v A Bv) (m33_mul_v A Bw). clear - RT'. rring.
Qed.

(** [adjoint T] is the conjugation action of [T] on twists *)
Lemma c47_adjoint_conjugation : forall (A : M44 T) (x : V6 T), SE3 A ->
  exists X, adjoint A = Ok X /\
  twist_to_se3 (m66_mul_v X x) = m44_mul (m44_mul A (twist_to_se3 x)) (homogeneous_inverse A).
Proof.
  intros A x H. destruct (adjoint_total A) as [X E]. exists X. split; [exact E| ].
  rewrite (adjoint_entries _ _ E). clear X E. pose proof H as (HS & _).
  rewrite (SE3_form A H) at 5 6. rewrite hom_inverse.
  revert HS. generalize (rot_of A) (trans_of A). clear A H. intros A p HS.
  change (twist_to_se3 x) with (se3_from_parts (skew_from_vec (tw_w x)) (tw_v x)).
  generalize (tw_w x) (tw_v x). clear x. intros w v.
  pose proof (SO3_skew A w HS) as K.
  assert (M : m44_mul (m44_mul (homogeneous_from_rotation A p) (se3_from_parts (skew_from_vec w) v))
       (homogeneous_from_rotation (m33_transpose A) (m33_mul_v (m33_neg (m33_transpose A)) p))
     = se3_from_parts (m33_mul (m33_mul A (skew_from_vec w)) (m33_transpose A))
         (v3_add (v3_neg (m33_mul_v (m33_mul (m33_mul A (skew_from_vec w)) (m33_transpose A)) p))
                 (m33_mul_v A v))) by rring.
  rewrite M, K. clear M K HS. generalize (m33_mul_v A w) (m33_mul_v A v). clear - RT'. rring.
Qed.

End WithRing.

(** ** Concrete cases *)
Section Examples.
Local Open Scope Z_scope.
Definition exRot : M33 Z := [| [| 0; -1; 0 |]; [| 1; 0; 0 |]; [| 0; 0; 1 |] |].
Example SO3_example : SO3 exRot.
Proof. repeat split. Qed.
Example SE3_example : SE3 (homogeneous_from_rotation exRot [| 2; 3; 5 |]).
Proof. repeat split. Qed.
Example se3_example : se3 (twist_to_se3 [| 1; 2; 3; 4; 5; 6 |]).
Proof. apply c43_twist_se3. exact Z_ring. Qed.
Example unit_dq_example : unit_dq (dq_new (q_new_from 0 0 0 1) (q_new_from 1 2 3 0)).
Proof. split; reflexivity. Qed.
Example C36_hom_example :
  m44_mul_v (dq_to_homogeneous (dq_new (q_new_from 0 0 0 1) (q_new_from 1 2 3 0))) (point [| 7; 8; 9 |])
  = [| -13; -4; 7; 1 |].
Proof. reflexivity. Qed.
Example C47_example :
  adjoint (homogeneous_from_rotation exRot [| 2; 3; 5 |])
  = Ok [| [| 0; -1; 0; 0; 0; 0 |]; [| 1; 0; 0; 0; 0; 0 |]; [| 0; 0; 1; 0; 0; 0 |];
          [| -5; 0; 3; 0; -1; 0 |]; [| 0; -5; -2; 1; 0; 0 |]; [| 2; 3; 0; 0; 0; 1 |] |].
Proof. reflexivity. Qed.

(** C36 as stated is false: a unit dual quaternion with a translation whose
    [transform_point] disagrees with its homogeneous matrix. *)
Lemma c36_transform_point_refuted : exists (a : DualQuaternion Z) p,
  unit_dq a /\ dq_get_translation a = [| 2; 0; 0 |]
  /\ m44_mul_v (dq_to_homogeneous a) (point p) <> point (dq_transform_point a p)
  /\ dq_transform_point a p <> v3_add (q_mul_v (dq_real a) p) (dq_get_translation a).
Proof.
  exists (dq_new (q_new_from 1 0 0 0) (q_new_from 0 1 0 0)), [| 0; 0; 0 |].
  repeat split; discriminate.
Qed.
End Examples.
