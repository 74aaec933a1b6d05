(** * ProofsQuat: C26, C27 (quaternion algebra and the rotation action), over
      every commutative ring

    Quaternions are compared by [qval], their four components: the cached flag
    [normalized] is no part of the mathematical value. *)

From Coq Require Import List Arith Lia Bool Ring ZArith.
From Verif Require Import Base Scalar Vec Mat2 Mat3 Slices MatLoops MatOps Quat RingDet Spec
  Entries DetEntries InstZ.
Import ListNotations.
Open Scope sc_scope.

Section Spec.
Context {T : Type} {nT : Num T} {sT : Signed T}.

(** components *)
Definition qval (a : Quaternion T) : T * T * T * T :=
  (q0 a, vfun (q a) 0, vfun (q a) 1, vfun (q a) 2).

(** Hamilton's product from the table i*i = j*j = k*k = i*j*k = -1 *)
Definition hamilton (a b : T * T * T * T) : T * T * T * T :=
  let '(a0, a1, a2, a3) := a in
  let '(b0, b1, b2, b3) := b in
  (a0 * b0 - a1 * b1 - a2 * b2 - a3 * b3,
   a0 * b1 + a1 * b0 + a2 * b3 - a3 * b2,
   a0 * b2 - a1 * b3 + a2 * b0 + a3 * b1,
   a0 * b3 + a1 * b2 - a2 * b1 + a3 * b0).

(** squared norm *)
Definition qnormsq (a : Quaternion T) : T :=
  let '(a0, a1, a2, a3) := qval a in a0 * a0 + a1 * a1 + a2 * a2 + a3 * a3.

Definition unit_quat (a : Quaternion T) : Prop := qnormsq a = one.

(** vector part of [a (0, v) conj(a)] by Hamilton's product *)
Definition sandwich (a : Quaternion T) (v : V3 T) : V3 T :=
  let '(a0, a1, a2, a3) := qval a in
  let '(_, x, y, z) := hamilton (hamilton (qval a) (zero, vfun v 0, vfun v 1, vfun v 2))
                          (a0, - a1, - a2, - a3) in
  [| x; y; z |].

(** proper rotation matrices: orthogonal with determinant one *)
Definition SO3 (R : M33 T) : Prop :=
  m33_mul (m33_transpose R) R = m33_identity /\ m33_mul R (m33_transpose R) = m33_identity
  /\ ldet 3 (mfun R) = one.
End Spec.

Ltac qdes := repeat match goal with
  | a : Quaternion _ |- _ => let x := fresh "x" in let y := fresh "y" in let z := fresh "z" in
      let w := fresh "w" in destruct a as [w (x & y & z & []) ?]
  | v : V3 _ |- _ => let x := fresh "x" in let y := fresh "y" in let z := fresh "z" in
      destruct v as (x & y & z & [])
  | m : M33 _ |- _ => let a := fresh "m" in let b := fresh "m" in let c := fresh "m" in
      let d := fresh "m" in let e := fresh "m" in let f := fresh "m" in
      let g := fresh "m" in let h := fresh "m" in let i := fresh "m" in
      destruct m as ((a & b & c & []) & (d & e & f & []) & (g & h & i & []) & [])
  end.
Ltac pairs := repeat match goal with
  | |- (_, _) = (_, _) => refine (f_equal2 pair _ _)
  | |- mkQ _ _ _ = mkQ _ _ _ => refine (f_equal3 mkQ _ _ _)
  end; try reflexivity.
Ltac qlazy := lazy -[add mul zero one sub neg div].

Section WithRing.
Context {T : Type} {nT : Num T} {sT : Signed T}.
Variable RT : RingLaws T.
Let RT' : ring_theory zero one add mul sub neg (@eq T) := RT.
Add Ring TheRing : RT'.
Ltac qring := intros; qdes; qlazy; pairs; ring.

(** ** C26 *)

Lemma c26_mul_hamilton : forall a b : Quaternion T,
  qval (q_mul a b) = hamilton (qval a) (qval b).
Proof. qring. Qed.

Lemma c26_mul_assoc : forall a b c : Quaternion T,
  q_mul (q_mul a b) c = q_mul a (q_mul b c).
Proof. qring. Qed.

Lemma c26_mul_one : forall a : Quaternion T,
  qval (q_mul q_one a) = qval a /\ qval (q_mul a q_one) = qval a.
Proof. intros; split; qring. Qed.

Lemma c26_distr : forall a b c : Quaternion T,
  q_mul a (q_add b c) = q_add (q_mul a b) (q_mul a c)
  /\ q_mul (q_add a b) c = q_add (q_mul a c) (q_mul b c).
Proof. intros; split; qring. Qed.

Lemma c26_additive_group : forall a b c : Quaternion T,
  q_add (q_add a b) c = q_add a (q_add b c) /\ q_add a b = q_add b a
  /\ qval (q_add a q_zero) = qval a /\ qval (q_add a (q_neg a)) = qval q_zero
  /\ q_sub a b = q_add a (q_neg b).
Proof. intros; repeat split; qring. Qed.

Lemma c26_scale : forall (a b : Quaternion T) s,
  qval (q_scale a s) = qval (q_mul (q_new_real s) a)
  /\ qval (q_mul (q_scale a s) b) = qval (q_scale (q_mul a b) s)
  /\ qval (q_mul a (q_scale b s)) = qval (q_scale (q_mul a b) s).
Proof. intros; repeat split; qring. Qed.

Lemma c26_conj_mul : forall a b : Quaternion T,
  q_conj (q_mul a b) = q_mul (q_conj b) (q_conj a).
Proof. qring. Qed.

Lemma c26_conj_involutive : forall a : Quaternion T, qval (q_conj (q_conj a)) = qval a.
Proof. qring. Qed.

Lemma c26_abs2 : forall a : Quaternion T,
  q_abs2 a = qnormsq a /\ q_dot a a = qnormsq a
  /\ qval (q_mul a (q_conj a)) = (qnormsq a, zero, zero, zero)
  /\ qval (q_mul (q_conj a) a) = (qnormsq a, zero, zero, zero).
Proof. intros; repeat split; qring. Qed.

Lemma c26_abs2_mul : forall a b : Quaternion T, q_abs2 (q_mul a b) = q_abs2 a * q_abs2 b.
Proof. qring. Qed.

Lemma c26_units :
  let i := q_new_from zero one zero zero in
  let j := q_new_from zero zero one zero in
  let k := q_new_from zero zero zero one in
  let m1 := q_new_from (- one) zero zero zero in
  q_mul i i = m1 /\ q_mul j j = m1 /\ q_mul k k = m1 /\ q_mul (q_mul i j) k = m1
  /\ q_mul i j = k /\ q_mul j k = i /\ q_mul k i = j.
Proof. repeat split; qring. Qed.

(** ** C27 *)

(** the two ways the crate computes the action *)
Lemma c27_to_rotation_sandwich : forall (a : Quaternion T) v,
  m33_mul_v (q_to_rotation a) v = sandwich a v.
Proof. qring. Qed.

Lemma unit_fix (N x y z : T) : N = one -> x = y + (one - N) * z -> x = y.
Proof. intros -> ->. ring. Qed.

Lemma c27_action_sandwich : forall (a : Quaternion T) v, unit_quat a ->
  q_mul_v a v = sandwich a v.
Proof.
  intros a v H. qdes. revert H; qlazy; intros H.
  pairs; match type of H with ?N = one =>
    first [apply (unit_fix N _ _ x H); ring | apply (unit_fix N _ _ y H); ring
          | apply (unit_fix N _ _ z H); ring | apply (unit_fix N _ _ x0 H); ring
          | apply (unit_fix N _ _ y0 H); ring | apply (unit_fix N _ _ z0 H); ring] end.
Qed.

Lemma c27_to_rotation_action : forall (a : Quaternion T) v, unit_quat a ->
  m33_mul_v (q_to_rotation a) v = q_mul_v a v.
Proof. intros. rewrite c27_action_sandwich by assumption. apply c27_to_rotation_sandwich. Qed.

Lemma c27_to_rotation_mul : forall a b : Quaternion T,
  q_to_rotation (q_mul a b) = m33_mul (q_to_rotation a) (q_to_rotation b).
Proof. qring. Qed.

Lemma c27_to_rotation_conj : forall a : Quaternion T,
  q_to_rotation (q_conj a) = m33_transpose (q_to_rotation a).
Proof. qring. Qed.

Lemma c27_to_rotation_neg : forall a : Quaternion T, q_to_rotation (q_neg a) = q_to_rotation a.
Proof. qring. Qed.

Lemma c27_action_neg : forall (a : Quaternion T) v, q_mul_v (q_neg a) v = q_mul_v a v.
Proof. qring. Qed.

(** without any hypothesis the matrix is orthogonal up to the squared norm *)
Lemma c27_to_rotation_gram : forall a : Quaternion T,
  m33_mul (q_to_rotation a) (m33_transpose (q_to_rotation a))
    = m33_scale m33_identity (qnormsq a * qnormsq a)
  /\ m33_mul (m33_transpose (q_to_rotation a)) (q_to_rotation a)
    = m33_scale m33_identity (qnormsq a * qnormsq a)
  /\ m33_det (q_to_rotation a) = qnormsq a * qnormsq a * qnormsq a.
Proof. intros; repeat split; qring. Qed.

Lemma c27_to_rotation_SO3 : forall a : Quaternion T, unit_quat a -> SO3 (q_to_rotation a).
Proof.
  intros a H. destruct (c27_to_rotation_gram a) as (H1 & H2 & H3).
  rewrite H in *. rewrite (m33_det_ldet RT) in H3.
  assert (E : m33_scale m33_identity (one * one) = m33_identity (T := T)) by qring.
  unfold SO3. rewrite H1, H2, H3, E. repeat split. ring.
Qed.

Lemma c27_action_compose : forall (a b : Quaternion T) v, unit_quat a -> unit_quat b ->
  q_mul_v (q_mul a b) v = q_mul_v a (q_mul_v b v).
Proof.
  intros a b v Ha Hb.
  assert (Hab : unit_quat (q_mul a b)).
  { unfold unit_quat. pose proof (c26_abs2_mul a b) as E.
    destruct (c26_abs2 a) as (<- & _), (c26_abs2 b) as (<- & _), (c26_abs2 (q_mul a b)) as (E' & _).
    unfold unit_quat in *. destruct (c26_abs2 a) as (Ea & _), (c26_abs2 b) as (Eb & _).
    rewrite <- E', E, Ea, Eb, Ha, Hb. ring. }
  rewrite <- !c27_to_rotation_action by assumption. rewrite c27_to_rotation_mul.
  generalize (q_to_rotation a) (q_to_rotation b). clear a b Ha Hb Hab. qring.
Qed.

Lemma c27_action_linear : forall (a : Quaternion T) u v s,
  q_mul_v a (v3_add u v) = v3_add (q_mul_v a u) (q_mul_v a v)
  /\ q_mul_v a (v3_scale v s) = v3_scale (q_mul_v a v) s.
Proof. intros; split; qring. Qed.

(** dot products, hence norms, are preserved *)
Lemma c27_action_dot : forall (a : Quaternion T) u v, unit_quat a ->
  v3_dot (q_mul_v a u) (q_mul_v a v) = v3_dot u v.
Proof.
  intros a u v H. rewrite !c27_action_sandwich by assumption.
  assert (E : v3_dot (sandwich a u) (sandwich a v) = qnormsq a * qnormsq a * v3_dot u v) by qring.
  rewrite E, H. ring.
Qed.

(** cross products (orientation) are preserved *)
Lemma c27_action_cross : forall (a : Quaternion T) u v, unit_quat a ->
  q_mul_v a (v3_cross u v) = v3_cross (q_mul_v a u) (q_mul_v a v).
Proof.
  intros a u v H. rewrite !c27_action_sandwich by assumption.
  assert (E : v3_cross (sandwich a u) (sandwich a v) = v3_scale (sandwich a (v3_cross u v)) (qnormsq a))
    by qring.
  rewrite E, H. generalize (sandwich a (v3_cross u v)). clear dependent a. qring.
Qed.

(** the conjugate undoes the rotation *)
Lemma c27_action_conj : forall (a : Quaternion T) v, unit_quat a ->
  q_mul_v (q_conj a) (q_mul_v a v) = v.
Proof.
  intros a v H.
  assert (H' : unit_quat (q_conj a)).
  { unfold unit_quat in *. rewrite <- H. qring. }
  rewrite !c27_action_sandwich by assumption.
  assert (E : sandwich (q_conj a) (sandwich a v) = v3_scale v (qnormsq a * qnormsq a)) by qring.
  rewrite E, H. qring.
Qed.

End WithRing.

(** ** Concrete cases: exact quaternions over Z *)
Section Examples.
Local Open Scope Z_scope.
Example C26_example :
  q_mul (q_new_from 1 2 3 4) (q_new_from 5 6 7 8) = q_new_from (-60) 12 30 24
  /\ q_mul (q_new_from 1 2 3 4) (q_new_from 5 6 7 8) <> q_mul (q_new_from 5 6 7 8) (q_new_from 1 2 3 4)
  /\ q_abs2 (q_new_from 1 2 3 4) = 30.
Proof. repeat split; cbv; discriminate. Qed.
Example C27_example :
  unit_quat (q_new_from 0 0 1 0)
  /\ q_mul_v (q_new_from 0 0 1 0) [| 1%Z; 2%Z; 3%Z |] = [| (-1)%Z; 2%Z; (-3)%Z |]
  /\ RingLaws Z.
Proof. split; [reflexivity| ]. split; [reflexivity| ]. exact Z_ring. Qed.
End Examples.
