(** * ProofsDual: C37-C41, dual quaternions over the reals *)

From Coq Require Import List Arith Lia Bool Reals Lra Psatz Nsatz.
From Verif Require Import Base Scalar Vec Mat2 Mat3 Mat4 Mat6 Slices MatLoops MatOps Quat Transf
  DualQuat RingDet Spec Entries DetEntries InstR RFacts TrigFacts ProofsRing ProofsInverse ProofsNorm
  ProofsQuat ProofsRigid ProofsRot ProofsQuatR ProofsQuatFlag ProofsQuatExp ProofsSlerp.
Import ListNotations.
Local Open Scope R_scope.

(** equality of dual quaternions as values *)
Lemma dqval_eq (a b : DualQuaternion R) :
  dqval a = dqval b <-> qval (dq_real a) = qval (dq_real b) /\ qval (dq_dual a) = qval (dq_dual b).
Proof. unfold dqval. split; [intros E; split; [exact (f_equal fst E)|exact (f_equal snd E)]|intros [-> ->]; reflexivity]. Qed.

Lemma dq_mul_val (a b c d : DualQuaternion R) : dqval a = dqval c -> dqval b = dqval d ->
  dqval (dq_mul a b) = dqval (dq_mul c d).
Proof.
  rewrite !dqval_eq. intros [A1 A2] [B1 B2].
  destruct (c35_mul_spec R_ring a b) as [-> ->], (c35_mul_spec R_ring c d) as [-> ->].
  rewrite A1, A2, B1, B2. split; reflexivity.
Qed.

Lemma unit_dq_val (a b : DualQuaternion R) : dqval a = dqval b -> unit_dq a -> unit_dq b.
Proof.
  rewrite dqval_eq. unfold unit_dq, unit_quat. intros [E1 E2] [U1 U2].
  apply qval_parts in E1 as [E1 E1'], E2 as [E2 E2'].
  rewrite qnormsq_dot in *. unfold q_dot in *. rewrite <- E1, <- E1', <- E2, <- E2'. split; assumption.
Qed.

Section R.
Context {K : RConsts} (OK : RConstsOk K).
Notation Q := (Quaternion R).
Notation DQ := (DualQuaternion R).

(** ** C37: conversions *)

Lemma rot_trans_value (rot p : Q) t : q_normalize rot = Some p ->
  dq_new_from_rot_trans rot t
  = Ok (mkDQ p (q_mul (q_scale (q_new_imag t) (1 / (1 + 1))) p) true).
Proof. intros E. unfold dq_new_from_rot_trans. rewrite E. reflexivity. Qed.

Lemma rot_trans_parts (p : Q) t : unit_quat p ->
  let a := mkDQ p (q_mul (q_scale (q_new_imag t) (1 / (1 + 1))) p) true in
  unit_dq a /\ dq_get_translation a = t.
Proof.
  intros U a. unfold unit_dq, unit_quat in *. split; [split; [exact U| ]| ].
  - unfold a. clear. rdes. rlazy. field.
  - unfold a. revert U. clear. rdes. rlazy. intros U.
    rpairs; match type of U with ?n = _ => match goal with |- _ = ?s => transitivity (s * n); [field|rewrite U; ring] end end.
Qed.

Lemma c37_rot_trans : forall (rot p : Q) t, honest rot -> q_normalize rot = Some p ->
  exists a, dq_new_from_rot_trans rot t = Ok a /\ unit_dq a /\ dq_normalized a = true
    /\ dq_real a = p /\ dq_get_translation a = t
    /\ dq_to_rotation_translation a = (q_to_rotation p, t)
    /\ dq_to_homogeneous a = homogeneous_from_rotation (q_to_rotation p) t.
Proof.
  intros rot p t H E. rewrite (rot_trans_value rot p t E).
  destruct (c32_normalize_some OK rot p H E) as (F & U & _).
  destruct (rot_trans_parts p t U) as [UD T].
  eexists. split; [reflexivity| ]. split; [exact UD|split; [reflexivity|split; [reflexivity|split; [exact T| ]]]].
  assert (X : dq_to_rotation_translation (mkDQ p (q_mul (q_scale (q_new_imag t) (1 / (1 + 1))) p) true) = (q_to_rotation p, t)).
  { unfold dq_to_rotation_translation. rewrite T. reflexivity. }
  split; [exact X|unfold dq_to_homogeneous; rewrite X; reflexivity].
Qed.

Lemma c37_rot_trans_panic_iff : forall (rot : Q) t,
  dq_new_from_rot_trans rot t = Panic <-> normalized rot = false /\ sqrt (qnormsq rot) < r_eps.
Proof.
  intros rot t. rewrite <- (c32_normalize_none_iff OK). unfold dq_new_from_rot_trans.
  destruct (q_normalize rot); cbn [unwrap bind]; split; congruence.
Qed.

Lemma c37_translation_then_rotation : forall (q : Q) t a, unit_quat q ->
  dq_new_from_rot_trans q t = Ok a ->
  dqval (dq_mul (dq_new_from_translation t) (dq_new_from_rotation q)) = dqval a.
Proof.
  intros q t a U E.
  assert (V : exists p, q_normalize q = Some p /\ qval p = qval q).
  { destruct (q_normalize q) as [p| ] eqn:N.
    - exists p. split; [reflexivity| ].
      destruct (c32_normalize_some OK q p (fun _ => U) N) as (_ & _ & _ & X).
      unfold unit_quat in U. rewrite U in X. cbn [one R_Num] in X. rewrite sqrt_1 in X. rewrite <- X. clear. rr.
    - unfold dq_new_from_rot_trans in E. rewrite N in E. discriminate E. }
  destruct V as (p & N & V). rewrite (rot_trans_value q p t N) in E. injection E as <-.
  apply qval_parts in V as [V1 V2]. destruct p as [p0 p1 pf], q as [q0 q1 qf]. cbn [Quat.q0 Quat.q] in V1, V2. subst.
  clear. rdes. rlazy. rpairs; field.
Qed.

Lemma from_homogeneous_value (A : M44 R) : SE3 A -> exists p,
  qval p = qval (q_from_rotation (rot_of A)) /\ unit_quat p /\
  dq_new_from_homogeneous A = Ok (mkDQ p (q_mul (q_scale (q_new_imag (trans_of A)) (1 / (1 + 1))) p) true).
Proof.
  intros H. destruct (c28_from_rotation _ (proj1 H)) as [U E].
  assert (HN : honest (q_from_rotation (rot_of A))) by (intros _; exact U).
  destruct (q_normalize (q_from_rotation (rot_of A))) as [p| ] eqn:N.
  - destruct (c32_normalize_some OK _ p HN N) as (F & Up & _ & X).
    exists p. split; [ |split; [exact Up| ]].
    + unfold unit_quat in U. rewrite U in X. cbn [one R_Num] in X. rewrite sqrt_1 in X. rewrite <- X. clear. rr.
    + change (dq_new_from_homogeneous A) with
        (bind (unwrap (q_normalize (q_from_rotation (rot_of A)))) (fun q => dq_new_from_rot_trans q (trans_of A))).
      rewrite N. cbn [unwrap bind]. apply rot_trans_value. unfold q_normalize. rewrite F. reflexivity.
  - exfalso. apply (c32_normalize_none_iff OK) in N as [_ L]. unfold unit_quat in U. rewrite U in L.
    cbn [one R_Num] in L. rewrite sqrt_1 in L. pose proof (eps_small K OK). lra.
Qed.

Lemma c37_homogeneous_round_trip : forall A : M44 R, SE3 A ->
  exists a, dq_new_from_homogeneous A = Ok a /\ unit_dq a /\ dq_normalized a = true
    /\ dq_to_homogeneous a = A.
Proof.
  intros A H. destruct (from_homogeneous_value A H) as (p & V & U & E).
  destruct (rot_trans_parts p (trans_of A) U) as [UD T].
  eexists. split; [exact E|split; [exact UD|split; [reflexivity| ]]].
  assert (X : dq_to_homogeneous (mkDQ p (q_mul (q_scale (q_new_imag (trans_of A)) (1 / (1 + 1))) p) true)
    = homogeneous_from_rotation (q_to_rotation p) (trans_of A)).
  { unfold dq_to_homogeneous, dq_to_rotation_translation. rewrite T. reflexivity. }
  rewrite X.
  assert (Y : q_to_rotation p = rot_of A).
  { rewrite <- (proj2 (c28_from_rotation _ (proj1 H))). apply qval_parts in V as [V1 V2].
    unfold q_to_rotation, q_real, q_imag. rewrite V1, V2. reflexivity. }
  rewrite Y. symmetry. apply (SE3_form A H).
Qed.

(** the other way round: up to the double cover *)
Lemma c37_dual_round_trip : forall a : DQ, unit_dq a ->
  exists b, dq_new_from_homogeneous (dq_to_homogeneous a) = Ok b
    /\ (dqval b = dqval a \/ dqval b = dqval (dq_neg a)).
Proof.
  intros a [U D]. pose proof (c36_to_homogeneous_SE3 R_ring a U) as H.
  destruct (from_homogeneous_value _ H) as (p & V & Up & E). eexists. split; [exact E| ].
  assert (R1 : q_to_rotation p = q_to_rotation (dq_real a)).
  { transitivity (rot_of (dq_to_homogeneous a)); [ |reflexivity].
    rewrite <- (proj2 (c28_from_rotation _ (proj1 H))). apply qval_parts in V as [V1 V2].
    unfold q_to_rotation, q_real, q_imag. rewrite V1, V2. reflexivity. }
  assert (T : trans_of (dq_to_homogeneous a) = dq_get_translation a) by reflexivity. rewrite T. clear T.
  (* the dual part is half the translation times the real part *)
  assert (DD : forall q : Q, qval q = qval (dq_real a) ->
     qval (q_mul (q_scale (q_new_imag (dq_get_translation a)) (1 / (1 + 1))) q) = qval (dq_dual a)).
  { intros q Eq. apply qval_parts in Eq as [E0 E1]. unfold unit_quat in U. revert U D E0 E1. clear. rdes. rlazy.
    intros U D E0 E1. injection E1 as -> -> ->. subst.
    match type of U with ?a * ?a + ?b * ?b + ?c * ?c + ?d * ?d = _ =>
    match type of D with _ * ?a' + (_ * ?b' + _ * ?c' + _ * ?d') = _ =>
      pose proof (f_equal (Rmult a') U) as X0; pose proof (f_equal (Rmult b') U) as X1;
      pose proof (f_equal (Rmult c') U) as X2; pose proof (f_equal (Rmult d') U) as X3;
      pose proof (f_equal (Rmult a) D) as Y0; pose proof (f_equal (Rmult b) D) as Y1;
      pose proof (f_equal (Rmult c) D) as Y2; pose proof (f_equal (Rmult d) D) as Y3
    end end.
    rpairs; lra. }
  destruct (to_rotation_determines p (dq_real a) Up U R1) as [P|P]; [left|right].
  - apply dqval_eq. cbn [dq_real dq_dual q_real_ q_dual_]. split; [exact P|now apply DD].
  - apply dqval_eq. cbn [dq_real dq_dual q_real_ q_dual_]. split; [exact P| ].
    assert (P' : qval (q_neg p) = qval (dq_real a)).
    { apply qval_parts in P as [E0 E1]. unfold q_neg, qval, q_new. cbn [Quat.q0 Quat.q]. rewrite E0, E1.
      clear. rdes. rlazy. rpairs; ring. }
    specialize (DD _ P'). revert DD. generalize (dq_get_translation a). clear. intros t. rdes. rlazy.
    intros E. injection E as <- <- <- <-. rpairs; field.
Qed.

(** new_from_array: rotation followed by translation components *)
Lemma c37_from_array : forall q0 q1 q2 q3 x y z : R,
  let a := dq_new_from_array [| q0; q1; q2; q3; x; y; z |] in
  qval (dq_real a) = (q0, q1, q2, q3)
  /\ (q0 * q0 + q1 * q1 + q2 * q2 + q3 * q3 = 1 -> unit_dq a /\ dq_get_translation a = [| x; y; z |]).
Proof.
  intros. split; [reflexivity| ]. intros U.
  apply (rot_trans_parts (q_new_from q0 q1 q2 q3) [| x; y; z |]). exact U.
Qed.

(** ** C38: inverse and normalize *)

(** the flag of a dual quaternion tells the truth *)
Definition dq_honest (a : DQ) : Prop := dq_normalized a = true -> unit_dq a.

Lemma c38_inverse_two_sided_partial : forall a b : DQ, dq_honest a -> honest (dq_real a) ->
  dq_inverse a = Ok b ->
  dqval (dq_mul a b) = dqval dq_one /\ dqval (dq_mul b a) = dqval dq_one.
Proof.
  intros a b HD H E. unfold dq_inverse in E. destruct (dq_normalized a) eqn:F.
  - injection E as <-. apply (c35_unit_conj R_ring). auto.
  - change (q_real_ a) with (dq_real a) in E. change (q_dual_ a) with (dq_dual a) in E.
    destruct (q_inverse (dq_real a)) as [i| ] eqn:I; cbn [unwrap bind] in E; [ |discriminate].
    injection E as <-. destruct (c32_inverse_two_sided OK _ i H I) as [L1 L2].
    clear F I HD H. destruct a as [r d fl]. cbn [dq_real dq_dual q_real_ q_dual_] in *.
    assert (A : forall x y : Q, qval x = (1, 0, 0, 0) -> qval (q_mul x y) = qval y /\ qval (q_mul y x) = qval y).
    { clear. intros x y X. rewrite !(c26_mul_hamilton R_ring), X. split; rr. }
    assert (M : forall x y z w : Q, qval x = qval z -> qval y = qval w -> qval (q_mul x y) = qval (q_mul z w)).
    { clear. intros x y z w X Y. rewrite !(c26_mul_hamilton R_ring), X, Y. reflexivity. }
    split; apply dqval_eq; cbn [dq_real dq_dual dq_mul dq_new q_real_ q_dual_ dq_one]; (split; [assumption| ]).
    + (* r (-i d i) + d i = 0 *)
      assert (Z : qval (q_mul r (q_mul (q_mul (q_neg i) d) i)) = qval (q_neg (q_mul d i))).
      { transitivity (qval (q_neg (q_mul (q_mul r i) (q_mul d i)))); [clear; rr| ].
        assert (NM : forall x y : Q, qval x = qval y -> qval (q_neg x) = qval (q_neg y)).
        { clear. intros x y X. apply qval_parts in X as [X0 X1]. unfold q_neg, qval, q_new. cbn [Quat.q0 Quat.q].
          rewrite X0, X1. reflexivity. }
        apply NM. apply A. exact L1. }
      revert Z. generalize (q_mul r (q_mul (q_mul (q_neg i) d) i)) (q_mul d i). clear. intros x y Z.
      apply qval_parts in Z as [Z0 Z1]. unfold q_add, qval, q_new. cbn [Quat.q0 Quat.q]. rewrite Z0, Z1.
      clear. rr.
    + assert (Z : qval (q_mul (q_mul (q_mul (q_neg i) d) i) r) = qval (q_neg (q_mul i d))).
      { rewrite (c26_mul_assoc R_ring). 
        transitivity (qval (q_mul (q_mul (q_neg i) d) (q_mul i r))); [reflexivity| ].
        destruct (A (q_mul i r) (q_mul (q_neg i) d) L2) as [_ ->]. clear. rr. }
      revert Z. generalize (q_mul (q_mul (q_mul (q_neg i) d) i) r) (q_mul i d). clear. intros x y Z.
      apply qval_parts in Z as [Z0 Z1]. unfold q_add, qval, q_new. cbn [Quat.q0 Quat.q]. rewrite Z0, Z1.
      clear. rr.
Qed.

Lemma c38_inverse_panic_iff : forall a : DQ, dq_inverse a = Panic <->
  dq_normalized a = false /\ normalized (dq_real a) = false /\ qnormsq (dq_real a) < r_eps.
Proof.
  intros a. unfold dq_inverse. change (q_real_ a) with (dq_real a).
  rewrite <- (c32_inverse_none_iff OK). destruct (dq_normalized a), (q_inverse (dq_real a)); cbn [unwrap bind];
    split; try congruence; intuition congruence.
Qed.

Lemma c38_normalize_none_iff : forall a : DQ, dq_normalize a = None <->
  dq_normalized a = false /\ sqrt (qnormsq (dq_real a)) < r_eps.
Proof.
  intros a. unfold dq_normalize. change (q_real_ a) with (dq_real a). rewrite q_norm2_sqrt.
  pose proof (sqrt_pos (qnormsq (dq_real a))) as P.
  destruct (dq_normalized a); [split; [discriminate|intros [H _]; discriminate H]| ].
  destruct (nearly_zero_cases OK (sqrt (qnormsq (dq_real a)))) as [[E L]|(E & L & _)]; rewrite E; cbn [negb];
    rewrite Rabs_pos_eq in L by exact P; split; try discriminate; auto; lra.
Qed.

(** what normalize does: divides both parts by the norm of the real part; that
    is a unit dual quaternion when the two parts are orthogonal *)
Lemma c38_normalize_partial : forall a b : DQ, dq_honest a -> dq_normalize a = Some b ->
  unit_quat (dq_real b) /\ dq_normalized b = true
  /\ dqval (dq_scale b (sqrt (qnormsq (dq_real a)))) = dqval a
  /\ (q_dot (dq_real a) (dq_dual a) = 0 -> unit_dq b).
Proof.
  intros a b H E. unfold dq_normalize in E. destruct (dq_normalized a) eqn:F.
  - injection E as <-. destruct (H F) as [U D]. split; [exact U|split; [exact F|split; [ |intros _; split; assumption]]].
    unfold unit_quat in U. rewrite U. cbn [one R_Num]. rewrite sqrt_1. clear. rr.
  - rewrite q_norm2_sqrt in E. pose proof (sqrt_sqrt _ (qnormsq_nonneg (dq_real a))) as S.
    pose proof (sqrt_pos (qnormsq (dq_real a))) as P. change (q_real_ a) with (dq_real a) in E.
    set (n := sqrt (qnormsq (dq_real a))) in *. clearbody n.
    destruct (nearly_zero_cases OK n) as [[Z _]|(Z & _ & N)]; rewrite Z in E; cbn [negb] in E; [discriminate| ].
    injection E as <-. cbn [dq_real dq_dual q_real_ q_dual_ dq_normalized].
    assert (U : unit_quat (q_div_s (dq_real a) n)).
    { unfold unit_quat. revert S N. clear. rdes. rlazy. intros S N.
      match type of S with _ = ?x => transitivity (x / (n * n)); [field; exact N|rewrite <- S; field; exact N] end. }
    split; [exact U|split; [reflexivity|split]].
    + revert N. clear. intros N. rdes. rlazy. rpairs; field; exact N.
    + intros D. split; [exact U| ]. revert D N. clear. rdes. rlazy. intros D N.
      match type of D with ?x = _ => transitivity (x / (n * n)); [field; exact N|rewrite D; field; exact N] end.
Qed.

(** the constructors whose flag is right *)
Lemma c38_honest_constructors : 
  unit_dq (dq_one : DQ) /\ (forall v, unit_dq (dq_new_from_point v : DQ))
  /\ (forall t, unit_dq (dq_new_from_translation t : DQ))
  /\ (forall q : Q, unit_quat q -> unit_dq (dq_new_from_rotation q))
  /\ (forall m : M33 R, SO3 m -> unit_dq (dq_new_from_rotation_matrix m))
  /\ (forall (q : Q) t a, honest q -> dq_new_from_rot_trans q t = Ok a -> unit_dq a)
  /\ (forall (A : M44 R) a, SE3 A -> dq_new_from_homogeneous A = Ok a -> unit_dq a).
Proof.
  assert (Z : forall q : Q, q_dot q q_zero = 0) by (clear; intros; rdes; rlazy; ring).
  assert (O : unit_quat (q_one : Q)) by (rlazy; ring).
  split; [ |split; [ |split; [ |split; [ |split; [ |split]]]]].
  - split; [exact O|apply Z].
  - intros v. split; [exact O| ]. clear. rdes. rlazy. ring.
  - intros v. split; [exact O| ]. clear. rdes. rlazy. ring.
  - intros q U. split; [exact U|apply Z].
  - intros m H. split; [apply (c28_from_rotation m H)|apply Z].
  - intros q t a H E. destruct (q_normalize q) as [p| ] eqn:N.
    + destruct (c37_rot_trans q p t H N) as (a' & E' & U & _). congruence.
    + unfold dq_new_from_rot_trans in E. rewrite N in E. discriminate E.
  - intros A a H E. destruct (c37_homogeneous_round_trip A H) as (a' & E' & U & _). congruence.
Qed.

(** new_from_rotation flags any quaternion: its "inverse" is then wrong *)
Lemma c38_flag_refuted : exists q : Q, let a := dq_new_from_rotation q in
  0 < qnormsq q /\ exists b, dq_inverse a = Ok b /\ dqval (dq_mul a b) <> dqval dq_one.
Proof.
  exists (q_new_real 2). split; [rlazy; lra| ]. eexists. split; [reflexivity| ].
  intros E. apply (f_equal (fun x => fst (fst (fst (fst x))))) in E. revert E. rlazy. lra.
Qed.

(** normalize does not make the parts orthogonal, but sets the flag *)
Lemma c38_normalize_refuted : exists a b c : DQ, dq_normalized a = false
  /\ dq_normalize a = Some b /\ ~ unit_dq b
  /\ dq_inverse b = Ok c /\ dqval (dq_mul b c) <> dqval dq_one.
Proof.
  exists (dq_new (q_new_real 1) (q_new_real 1)).
  eexists. eexists. split; [reflexivity|split].
  { unfold dq_normalize. cbn [dq_normalized dq_new q_real_ q_dual_]. rewrite q_norm2_sqrt.
    replace (qnormsq (q_new_real 1)) with 1 by (rlazy; ring). rewrite sqrt_1.
    replace (nearly_zero 1) with false; [reflexivity| ].
    symmetry. apply (nearly_zero_false OK). rewrite Rabs_R1. pose proof (eps_small K OK). lra. }
  split; [ |split; [reflexivity| ]].
  - intros [_ D]. revert D. rlazy. lra.
  - intros E. apply (f_equal (fun x => fst (fst (fst (snd x))))) in E. revert E. rlazy. lra.
Qed.

(** what is_normalized looks at: the norm of the real part only (the comparison
    of the dual part repeats it), unless components of the dual part are near the
    largest number *)
Lemma nearly_one n : 0 <= n -> nearly_equal n 1 epsilon = true <-> Rabs (n - 1) < r_eps * (n + 1).
Proof.
  intros P. pose proof (eps_pos K OK) as E0. pose proof (eps_small K OK) as E1. pose proof (max_large K OK) as M.
  unfold nearly_equal. cbn [abs R_Signed eqb R_Num zero sub add div ltb R_POrd fmin min_value max_value epsilon R_Float].
  assert (I0 : 0 < / 1000000 < / 4) by (split; [apply Rinv_0_lt_compat; lra|apply Rinv_lt_contravar; lra]).
  destruct (Reqb_spec n 1) as [->|Hn].
  { split; [intros _|reflexivity]. rewrite Rminus_diag_eq, Rabs_R0 by reflexivity. lra. }
  destruct (Reqb_spec 1 0); [lra| ]. rewrite (Rabs_pos_eq n), Rabs_R1 by lra. rewrite orb_false_r.
  destruct (Reqb_spec n 0) as [->|H0]; cbn [orb].
  { rewrite Rminus_0_l, Rabs_Ropp, Rabs_R1. destruct (Rltb_spec 1 r_eps); split; intros; (lra || discriminate). }
  destruct (Rltb_spec (n + 1) (- r_max)); [lra| ].
  destruct (Rltb_spec (Rabs (n - 1) / Rmin (n + 1) r_max) r_eps) as [L|L]; split; intros H; try reflexivity; try discriminate.
  - assert (D : 0 < Rmin (n + 1) r_max) by (apply Rmin_glb_lt; lra).
    apply (Rmult_lt_compat_r _ _ _ D) in L. unfold Rdiv in L. rewrite Rmult_assoc, Rinv_l, Rmult_1_r in L by lra.
    pose proof (Rmin_l (n + 1) r_max). nra.
  - exfalso. apply L. destruct (Rle_lt_dec (n + 1) r_max) as [C|C].
    + rewrite Rmin_left by assumption. apply (Rmult_lt_reg_r (n + 1)); [lra| ].
      unfold Rdiv. rewrite Rmult_assoc, Rinv_l, Rmult_1_r by lra. exact H.
    + rewrite Rabs_pos_eq in H by lra. nra.
Qed.

Lemma c38_is_normalized_sound : forall a : DQ, dq_normalized a = false -> dq_is_normalized a = true ->
  sqrt (qnormsq (dq_real a)) < r_eps
  \/ Rabs (sqrt (qnormsq (dq_real a)) - 1) < r_eps * (sqrt (qnormsq (dq_real a)) + 1).
Proof.
  intros a F. unfold dq_is_normalized. rewrite F, q_norm2_sqrt. cbv zeta.
  pose proof (sqrt_pos (qnormsq (dq_real a))) as P. set (n := sqrt (qnormsq (dq_real a))) in *.
  destruct (nearly_zero_cases OK n) as [[Z L]|(Z & _ & _)]; rewrite Z.
  - intros _. left. now rewrite Rabs_pos_eq in L.
  - intros H. apply andb_true_iff in H as [H _]. right. now apply nearly_one.
Qed.

Lemma scaled_close n x : 0 < n -> Rabs (n - 1) < r_eps * (n + 1) -> Rabs x / n + Rabs x <= r_max ->
  nearly_equal (x / n) x epsilon = true.
Proof.
  intros P H B. pose proof (eps_pos K OK) as E0.
  unfold nearly_equal. cbn [abs R_Signed eqb R_Num zero sub add div ltb R_POrd fmin min_value max_value epsilon R_Float].
  destruct (Reqb_spec (x / n) x); [reflexivity| ].
  assert (X : x <> 0) by (intros ->; apply n0; unfold Rdiv; apply Rmult_0_l).
  pose proof (Rabs_pos_lt x X) as Px. pose proof (Rinv_0_lt_compat n P) as Pn.
  destruct (Reqb_spec (x / n) 0) as [Z|_].
  { exfalso. apply X. apply (Rmult_eq_reg_r (/ n)); [ |lra]. rewrite Rmult_0_l. exact Z. }
  destruct (Reqb_spec x 0); [contradiction| ]. cbn [orb].
  replace (Rabs (x / n)) with (Rabs x / n) by (unfold Rdiv; rewrite Rabs_mult, (Rabs_pos_eq (/ n)); lra).
  assert (S : 0 < Rabs x / n + Rabs x) by (unfold Rdiv; nra).
  destruct (Rltb_spec (Rabs x / n + Rabs x) (- r_max)); [pose proof (max_large K OK); lra| ].
  rewrite Rmin_left by assumption.
  replace (x / n - x) with (x * / n * (- (n - 1))) by (field; lra).
  rewrite !Rabs_mult, Rabs_Ropp, (Rabs_pos_eq (/ n)) by lra.
  destruct (Rltb_spec (Rabs x * / n * Rabs (n - 1) / (Rabs x / n + Rabs x)) r_eps) as [ |L]; [reflexivity| ].
  exfalso. apply L. apply (Rmult_lt_reg_r (Rabs x / n + Rabs x)); [exact S| ].
  unfold Rdiv at 1. rewrite Rmult_assoc, Rinv_l, Rmult_1_r by lra.
  replace (r_eps * (Rabs x / n + Rabs x)) with (Rabs x * / n * (r_eps * (n + 1))) by (field; lra).
  apply Rmult_lt_compat_l; [nra|exact H].
Qed.

Lemma c38_is_normalized_complete : forall a : DQ,
  dq_normalized a = true \/ sqrt (qnormsq (dq_real a)) < r_eps
  \/ (Rabs (sqrt (qnormsq (dq_real a)) - 1) < r_eps * (sqrt (qnormsq (dq_real a)) + 1)
      /\ sqrt (qnormsq (dq_dual a)) <= r_max / 3) ->
  dq_is_normalized a = true.
Proof.
  intros a. unfold dq_is_normalized. destruct (dq_normalized a); [reflexivity| ]. rewrite q_norm2_sqrt. cbv zeta.
  pose proof (sqrt_pos (qnormsq (dq_real a))) as P. set (n := sqrt (qnormsq (dq_real a))) in *.
  pose proof (eps_pos K OK) as E0. pose proof (eps_small K OK) as E1.
  assert (I0 : 0 < / 1000000 < / 10) by (split; [apply Rinv_0_lt_compat; lra|apply Rinv_lt_contravar; lra]).
  destruct (nearly_zero_cases OK n) as [[Z L]|(Z & L & N)]; rewrite Z; [reflexivity| ].
  rewrite Rabs_pos_eq in L by exact P.
  intros [D|[D|[H B]]]; [discriminate|lra| ].
  assert (Hn : / 2 < n).
  { revert H. unfold Rabs. destruct (Rcase_abs (n - 1)); nra. }
  change (nearly_equal n one epsilon) with (nearly_equal n 1 epsilon).
  rewrite (proj2 (nearly_one n P) H). cbn [andb].
  assert (G : forall x, x * x <= qnormsq (dq_dual a) -> nearly_equal (x / n) x epsilon = true).
  { intros x Hx. apply scaled_close; [lra|exact H| ].
    assert (Rabs x <= r_max / 3).
    { apply Rle_trans with (2 := B). rewrite <- sqrt_Rsqr_abs. apply sqrt_le_1_alt. exact Hx. }
    assert (Rabs x / n <= 2 * Rabs x).
    { unfold Rdiv. rewrite (Rmult_comm 2). apply Rmult_le_compat_l; [apply Rabs_pos| ].
      rewrite <- (Rinv_inv 2). apply Rinv_le_contravar; lra. }
    lra. }
  destruct (dq_dual a) as [w (x & y & z & []) f].
  change (qnormsq _) with (w * w + x * x + y * y + z * z) in G.
  assert (G' : nearly_equal (w / n) w epsilon = true /\ nearly_equal (x / n) x epsilon = true
    /\ nearly_equal (y / n) y epsilon = true /\ nearly_equal (z / n) z epsilon = true)
    by (repeat split; apply G; nra).
  destruct G' as (G1 & G2 & G3 & G4).
  change (nearly_equal (w / n) w epsilon && nearly_equal (x / n) x epsilon
    && nearly_equal (y / n) y epsilon && nearly_equal (z / n) z epsilon = true).
  now rewrite G1, G2, G3, G4.
Qed.

(** is_normalized accepts the zero dual quaternion, and one with non-orthogonal
    parts *)
Lemma c38_is_normalized_refuted :
  dq_is_normalized (dq_zero : DQ) = true
  /\ exists a : DQ, dq_normalized a = false /\ dq_is_normalized a = true /\ ~ unit_dq a
       /\ dqval (dq_norm a) <> dqval dq_one.
Proof.
  split.
  - unfold dq_is_normalized. cbn [dq_normalized dq_zero dq_new]. rewrite q_norm2_sqrt.
    replace (qnormsq (dq_real (dq_zero : DQ))) with 0 by (rlazy; ring). rewrite sqrt_0.
    replace (nearly_zero 0) with true; [reflexivity| ].
    symmetry. unfold nearly_zero. apply nearly_equal_refl.
  - exists (dq_new (q_new_real 1) (q_new_real 1)). split; [reflexivity|split].
    + unfold dq_is_normalized. cbn [dq_normalized dq_new dq_real dq_dual q_real_ q_dual_]. rewrite q_norm2_sqrt.
      replace (qnormsq (q_new_real 1)) with 1 by (rlazy; ring). rewrite sqrt_1.
      replace (nearly_zero 1) with false.
      2:{ symmetry. apply (nearly_zero_false OK). rewrite Rabs_R1. pose proof (eps_small K OK). lra. }
      replace (q_div_s (q_new_real 1) 1) with (q_new_real 1 : Q) by (rlazy; f_equal; [field|rpairs; field]).
      rewrite !nearly_equal_refl. reflexivity.
    + split.
      * intros [_ D]. revert D. rlazy. lra.
      * intros E. apply (f_equal (fun x => fst (fst (fst (snd x))))) in E. revert E. rlazy. lra.
Qed.

Example C38_is_normalized_example :
  let a := dq_new (mkQ (3/5) [|4/5; 0; 0|] false) (q_new_real 7) : DQ in
  dq_normalized a = false /\ Rabs (sqrt (qnormsq (dq_real a)) - 1) < r_eps * (sqrt (qnormsq (dq_real a)) + 1)
  /\ sqrt (qnormsq (dq_dual a)) <= r_max / 3.
Proof.
  cbv zeta. split; [reflexivity| ]. cbn [dq_real dq_dual dq_new q_real_ q_dual_].
  replace (qnormsq (mkQ (3/5) [|4/5; 0; 0|] false)) with 1 by (rlazy; field).
  replace (qnormsq (q_new_real 7)) with (7 * 7) by (rlazy; field).
  rewrite sqrt_1, sqrt_square, Rminus_diag_eq, Rabs_R0 by (reflexivity || lra).
  pose proof (eps_pos K OK). pose proof (max_large K OK). lra.
Qed.

(** ** C39: screw parameters and powers *)

(** Specification: the unit dual quaternion of the screw with axis direction
    [l], moment [m], angle [theta] and displacement [d] *)
Definition screw (l m : V3 R) (theta d : R) : (R * R * R * R) * (R * R * R * R) :=
  let c := cos (theta / 2) in let s := sin (theta / 2) in
  ((c, s * vfun l 0, s * vfun l 1, s * vfun l 2),
   (- (d / 2) * s, s * vfun m 0 + d / 2 * c * vfun l 0, s * vfun m 1 + d / 2 * c * vfun l 1,
    s * vfun m 2 + d / 2 * c * vfun l 2)).

Lemma new_from_screw_value l m theta d :
  dqval (dq_new_from_screw_parameters l m theta d) = screw l m theta d.
Proof.
  unfold dq_new_from_screw_parameters, screw. cbn [sin_cos fsin fcos R_Float one add div neg R_Num R_Signed].
  replace (1 + 1) with 2 by ring. generalize (cos (theta / 2)) (sin (theta / 2)). clear. intros c s.
  rdes. rlazy. rpairs; field.
Qed.

(** screws about the same axis compose by adding angles and displacements *)
Lemma screw_mul (a b : DQ) l m t1 d1 t2 d2 : unit3 l -> v3_dot l m = 0 ->
  dqval a = screw l m t1 d1 -> dqval b = screw l m t2 d2 ->
  dqval (dq_mul a b) = screw l m (t1 + t2) (d1 + d2).
Proof.
  intros U O A B.
  assert (A' : dqval a = dqval (dq_new_from_screw_parameters l m t1 d1)) by (rewrite new_from_screw_value; exact A).
  assert (B' : dqval b = dqval (dq_new_from_screw_parameters l m t2 d2)) by (rewrite new_from_screw_value; exact B).
  rewrite (dq_mul_val _ _ _ _ A' B'). unfold screw.
  replace ((t1 + t2) / 2) with (t1 / 2 + t2 / 2) by field. rewrite cos_plus, sin_plus.
  unfold dq_new_from_screw_parameters. cbn [sin_cos fsin fcos R_Float one add div neg R_Num R_Signed].
  replace (1 + 1) with 2 by ring.
  generalize (cos (t1 / 2)) (sin (t1 / 2)) (cos (t2 / 2)) (sin (t2 / 2)).
  unfold unit3 in U. revert U O. clear. destruct l as [x [y [z []]]], m as [p [q [r []]]]. rlazy. intros U O c1 s1 c2 s2.
  assert (U1 : forall k, k * (x * x + y * y + z * z) = k) by (intros k; rewrite U; ring).
  assert (O1 : forall k, k * (x * p + y * q + z * r) = 0) by (intros k; rewrite O; ring).
  rpairs; try (field; fail).
  - pose proof (U1 (s1 * s2)). lra.
  - pose proof (O1 (s1 * s2)). pose proof (U1 (d1 * c1 * s2)). pose proof (U1 (d2 * c2 * s1)). 
    pose proof (U1 (d1 * s1 * c2)). pose proof (U1 (d2 * s2 * c1)). lra.
Qed.

(** every unit dual quaternion with a rotation part is a screw; these are its
    parameters *)
Definition screw_of (a : DQ) : V3 R * V3 R * R * R :=
  let w := q0 (dq_real a) in let v := Quat.q (dq_real a) in let s := v3_norm2 v in
  let l := v3_scale v (/ s) in let d := -2 * q0 (dq_dual a) / s in
  (l, v3_scale (v3_sub (Quat.q (dq_dual a)) (v3_scale l (d / 2 * w))) (/ s), 2 * acos w, d).

Lemma unit_acos (q : Q) : unit_quat q ->
  cos (acos (q0 q)) = q0 q /\ sin (acos (q0 q)) = v3_norm2 (Quat.q q)
  /\ acos (q0 q) = Ratan2 (v3_norm2 (Quat.q q)) (q0 q).
Proof.
  unfold unit_quat. rewrite qnormsq_dot, <- v3_norm2_sq. intros U. cbn [one R_Num] in U.
  pose proof (v3_norm2_nonneg (Quat.q q)) as P. set (s := v3_norm2 _) in *. set (w := q0 q) in *. clearbody s w.
  assert (B : -1 <= w <= 1) by nra.
  assert (C : cos (acos w) = w) by (apply cos_acos; exact B).
  assert (S : sin (acos w) = s).
  { rewrite sin_acos' by exact B. replace (1 - w * w) with (s * s) by lra. apply sqrt_square. exact P. }
  split; [exact C|split; [exact S| ]].
  destruct (Ratan2_unit w s ltac:(lra)) as [C2 S2].
  pose proof (acos_bound w) as A1. pose proof (Ratan2_nonneg w s P) as A2. pose proof PI_RGT_0 as PP.
  apply angle_unique; try lra; congruence.
Qed.

Lemma norm_pos (v : V3 R) : v <> v3_zeros -> 0 < v3_norm2 v.
Proof.
  intros N. destruct (Rle_lt_or_eq_dec _ _ (v3_norm2_nonneg v)) as [L|E]; [exact L| ].
  symmetry in E. apply v3_norm2_zero in E. contradiction.
Qed.

Lemma screw_of_spec (a : DQ) : unit_dq a -> Quat.q (dq_real a) <> v3_zeros ->
  let '(l, m, theta, d) := screw_of a in
  unit3 l /\ v3_dot l m = 0 /\ dqval a = screw l m theta d.
Proof.
  intros [U D] N. unfold screw_of. destruct (unit_acos _ U) as (C & S & _).
  pose proof (norm_pos _ N) as P. pose proof (v3_norm2_sq (Quat.q (dq_real a))) as SQ.
  unfold unit_quat in U. rewrite qnormsq_dot in U.
  unfold screw. replace (2 * acos (q0 (dq_real a)) / 2) with (acos (q0 (dq_real a))) by field.
  rewrite C, S. set (s := v3_norm2 _) in *. clearbody s. clear C S N.
  assert (P' : s <> 0) by lra.
  revert U D SQ P'. unfold unit3. clear. rdes. rlazy. intros U D SQ P.
  split; [ |split].
  - match type of SQ with _ = ?x => transitivity (x / (s * s)); [field; exact P|rewrite <- SQ; field; exact P] end.
  - match type of SQ with _ = ?x => match type of D with ?w * ?d0 + ?y = _ =>
      transitivity ((y + d0 * w * (x / (s * s))) / (s * s)); [field; exact P| ];
      rewrite <- SQ; replace (s * s / (s * s)) with 1 by (field; exact P);
      replace (y + d0 * w * 1) with (w * d0 + y) by ring; rewrite D; field; exact P end end.
  - rpairs; field; exact P.
Qed.

(** the dual part is half the translation times the real part *)
Lemma dual_half_translation (a : DQ) : unit_dq a ->
  v3_dot (dq_get_translation a) (Quat.q (dq_real a)) = -2 * q0 (dq_dual a)
  /\ v3_add (v3_cross (dq_get_translation a) (Quat.q (dq_real a)))
            (v3_scale (dq_get_translation a) (q0 (dq_real a))) = v3_scale (Quat.q (dq_dual a)) 2.
Proof.
  intros [U D]. unfold unit_quat in U. revert U D. clear. rdes. rlazy. intros U D.
  match type of U with ?a * ?a + ?b * ?b + ?c * ?c + ?d * ?d = _ =>
  match type of D with _ * ?a' + (_ * ?b' + _ * ?c' + _ * ?d') = _ =>
    pose proof (f_equal (Rmult a') U) as X0; pose proof (f_equal (Rmult b') U) as X1;
    pose proof (f_equal (Rmult c') U) as X2; pose proof (f_equal (Rmult d') U) as X3;
    pose proof (f_equal (Rmult a) D) as Y0; pose proof (f_equal (Rmult b) D) as Y1;
    pose proof (f_equal (Rmult c) D) as Y2; pose proof (f_equal (Rmult d) D) as Y3
  end end.
  split; [lra|rpairs; lra].
Qed.

(** cotangent of the half angle. At a half turn ([w = 0]) the model computes
    1/tan(PI/2) = 1/(1/0) = 0 with Coq's total division; the floating-point
    value is 6e-17 there *)
Lemma cot_half (q : Q) : unit_quat q -> Quat.q q <> v3_zeros ->
  1 / tan (q_get_angle q / 2) = q0 q / v3_norm2 (Quat.q q)
  /\ sin (q_get_angle q / 2) = v3_norm2 (Quat.q q) /\ q_get_angle q = 2 * acos (q0 q).
Proof.
  intros U N. destruct (unit_acos q U) as (C & S & A). pose proof (norm_pos _ N) as P.
  assert (G : q_get_angle q = 2 * acos (q0 q)).
  { rewrite A. unfold q_get_angle. cbn [one add mul R_Num fatan2 R_Float]. ring. }
  rewrite G. replace (2 * acos (q0 q) / 2) with (acos (q0 q)) by field. unfold tan. rewrite C, S.
  split; [ |split; [reflexivity|reflexivity]].
  destruct (Req_dec (q0 q) 0) as [Z|Z]; [rewrite Z|field; split; lra].
  unfold Rdiv. rewrite Rinv_0, !Rmult_0_r, Rinv_0. ring.
Qed.

Lemma get_screw_value (a : DQ) : unit_dq a -> Quat.q (dq_real a) <> v3_zeros ->
  r_eps <= q_get_angle (dq_real a) -> dq_get_screw_parameters a = screw_of a.
Proof.
  intros U N G. pose proof (c29_angle_range (dq_real a)) as GR.
  destruct (cot_half _ (proj1 U) N) as (C & S & A). destruct (dual_half_translation a U) as [T1 T2].
  pose proof (norm_pos _ N) as P. pose proof (v3_norm2_sq (Quat.q (dq_real a))) as SQ.
  unfold dq_get_screw_parameters.
  replace (nearly_zero (q_get_angle (dq_real a))) with false.
  2:{ symmetry. apply (nearly_zero_false OK). rewrite Rabs_pos_eq; lra. }
  cbn [negb fsin ftan R_Float div one add R_Num]. replace (1 + 1) with 2 by ring.
  rewrite C, S, A. unfold screw_of. change (q_imag (dq_real a)) with (Quat.q (dq_real a)).
  rewrite v3_div_scale.
  set (t := dq_get_translation a) in *. set (s := v3_norm2 _) in *. set (w := q0 (dq_real a)) in *.
  set (v := Quat.q (dq_real a)) in *. set (d0 := q0 (dq_dual a)) in *. set (dv := Quat.q (dq_dual a)) in *.
  clearbody t s w v d0 dv. clear C S A N G GR U a.
  assert (E : v3_dot t (v3_scale v (/ s)) = -2 * d0 / s).
  { transitivity (v3_dot t v / s); [clear; rdes; rlazy; unfold Rdiv; ring|rewrite T1; reflexivity]. }
  rewrite E. f_equal. f_equal. f_equal.
  assert (P' : s <> 0) by lra. revert T2 P'. clear. rdes. rlazy. intros T2 P. injection T2 as E0 E1 E2.
  rpairs.
  all: match goal with |- _ = (?x + _) * _ => idtac | |- _ = (?x - _) * _ => 
    match type of E0 with _ = x * _ => replace x with (x * 2 / 2) by field; rewrite <- E0
    | _ => match type of E1 with _ = x * _ => replace x with (x * 2 / 2) by field; rewrite <- E1
    | _ => match type of E2 with _ = x * _ => replace x with (x * 2 / 2) by field; rewrite <- E2 end end end end;
    field; exact P.
Qed.


(** decomposing and rebuilding: the parameters describe the motion *)
Lemma c39_screw_round_trip : forall a : DQ, unit_dq a -> Quat.q (dq_real a) <> v3_zeros ->
  r_eps <= q_get_angle (dq_real a) ->
  let '(l, m, theta, d) := dq_get_screw_parameters a in
  dqval (dq_new_from_screw_parameters l m theta d) = dqval a
  /\ unit3 l /\ v3_dot l m = 0 /\ 0 < theta <= 2 * PI
  /\ d = v3_dot (dq_get_translation a) l
  /\ q_to_rotation (dq_real a) = rodrigues l theta.
Proof.
  intros a U N G. rewrite (get_screw_value a U N G).
  pose proof (screw_of_spec a U N) as X. pose proof (c29_angle_range (dq_real a)) as GR.
  destruct (cot_half _ (proj1 U) N) as (_ & _ & A). pose proof (eps_pos K OK) as E0.
  destruct (dual_half_translation a U) as [T1 _].
  unfold screw_of in *. destruct X as (X1 & X2 & X3).
  split; [rewrite new_from_screw_value; symmetry; exact X3|split; [exact X1|split; [exact X2|split; [lra| ]]]].
  split.
  - rewrite <- T1. unfold Rdiv. generalize (/ v3_norm2 (Quat.q (dq_real a))) (dq_get_translation a). clear. intros k t. rdes. rlazy. ring.
  - rewrite <- half_angle_quat_rotation by exact X1.
    assert (V : qval (dq_real a) = qval (q_new (cos (2 * acos (q0 (dq_real a)) / 2))
       (v3_scale (v3_scale (Quat.q (dq_real a)) (/ v3_norm2 (Quat.q (dq_real a)))) (sin (2 * acos (q0 (dq_real a)) / 2))))).
    { apply (f_equal fst) in X3. etransitivity; [exact X3| ]. cbv zeta. unfold screw. cbn [fst].
      generalize (cos (2 * acos (q0 (dq_real a)) / 2)) (sin (2 * acos (q0 (dq_real a)) / 2)) (v3_norm2 (Quat.q (dq_real a))).
      clear. rr. }
    apply qval_parts in V as [V1 V2]. unfold q_to_rotation, q_real, q_imag.
    rewrite <- V1, <- V2. reflexivity.
Qed.

Lemma screw_line (l p t : V3 R) s c d : unit3 l -> s * s + c * c = 1 ->
  v3_add (m33_mul_v (q_to_rotation (q_new c (v3_scale l s))) p) t = v3_add p (v3_scale l d) ->
  v3_scale (v3_cross p l) (2 * s)
  = v3_add (v3_scale (v3_cross t l) s) (v3_scale (v3_sub t (v3_scale l d)) c).
Proof.
  unfold unit3. destruct l as [x [y [z []]]], p as [px [py [pz []]]], t as [tx [ty [tz []]]]. rlazy.
  intros U SC E. injection E as E1 E2 E3. rpairs; nsatz.
Qed.

(** [l], [m] are the Pluecker coordinates of the screw axis: every point [p]
    that the motion moves by [d * l] lies on the line of moment [m] *)
Lemma c39_screw_axis : forall (a : DQ) p, unit_dq a -> Quat.q (dq_real a) <> v3_zeros ->
  r_eps <= q_get_angle (dq_real a) ->
  let '(l, m, theta, d) := dq_get_screw_parameters a in
  v3_add (m33_mul_v (q_to_rotation (dq_real a)) p) (dq_get_translation a) = v3_add p (v3_scale l d) ->
  v3_cross p l = m.
Proof.
  intros a p U N G. pose proof (get_screw_value a U N G) as GV.
  pose proof (screw_of_spec a U N) as X. destruct (cot_half _ (proj1 U) N) as (C & S & A).
  destruct (unit_acos _ (proj1 U)) as (CC & SS & _).
  pose proof (eps_pos K OK) as E0. pose proof (norm_pos _ N) as P.
  unfold dq_get_screw_parameters in *. pose proof (c29_angle_range (dq_real a)) as GR.
  replace (nearly_zero (q_get_angle (dq_real a))) with false in *.
  2: symmetry; apply (nearly_zero_false OK); rewrite Rabs_pos_eq; lra.
  cbn [negb fsin ftan R_Float div one add R_Num] in *. replace (1 + 1) with 2 in * by ring.
  rewrite C, S in *. change (q_imag (dq_real a)) with (Quat.q (dq_real a)) in *. rewrite v3_div_scale in *.
  unfold screw_of in X, GV. injection GV as _ _ _ GD. rewrite <- GD in X. destruct X as (X1 & _ & _).
  set (l := v3_scale (Quat.q (dq_real a)) (/ v3_norm2 (Quat.q (dq_real a)))) in *.
  set (d := v3_dot (dq_get_translation a) l) in *. clearbody d.
  intros HH. set (s := v3_norm2 (Quat.q (dq_real a))) in *. set (c := q0 (dq_real a)) in *.
  assert (SC : s * s + c * c = 1).
  { destruct U as [U _]. unfold unit_quat in U. rewrite qnormsq_dot, <- v3_norm2_sq in U. fold s c in U. cbn [one R_Num] in U. lra. }
  assert (R1 : q_to_rotation (dq_real a) = q_to_rotation (q_new c (v3_scale l s))).
  { unfold l. rewrite v3_scale_scale. replace (/ s * s) with 1 by (field; lra). rewrite v3_scale_1. reflexivity. }
  rewrite R1 in HH. pose proof (screw_line l p (dq_get_translation a) s c d X1 SC HH) as L. clear HH.
  revert L. generalize (dq_get_translation a). clearbody l s c. clear - P. intros t L.
  assert (P' : s <> 0) by lra. revert L P'. clear. rdes. rlazy. intros L P. injection L as E1 E2 E3.
  rpairs; apply (Rmult_eq_reg_r (2 * s)); try lra.
  - rewrite E1. field. exact P.
  - rewrite E2. field. exact P.
  - rewrite E3. field. exact P.
Qed.

(** building and decomposing: angle in (0, 2 PI) *)
Lemma c39_screw_parameters : forall (l m : V3 R) theta d, unit3 l -> v3_dot l m = 0 ->
  r_eps <= theta < 2 * PI ->
  unit_dq (dq_new_from_screw_parameters l m theta d)
  /\ dq_get_screw_parameters (dq_new_from_screw_parameters l m theta d) = (l, m, theta, d).
Proof.
  intros l m theta d U O T. pose proof (eps_pos K OK) as E0. set (a := dq_new_from_screw_parameters l m theta d).
  pose proof (new_from_screw_value l m theta d) as V. fold a in V.
  assert (S : 0 < sin (theta / 2)) by (apply sin_gt_0; lra).
  pose proof (sin2_cos2' (theta / 2)) as SC.
  assert (A0 : q0 (dq_real a) = cos (theta / 2) /\ Quat.q (dq_real a) = v3_scale l (sin (theta / 2))).
  { unfold a, dq_new_from_screw_parameters. cbn [sin_cos fsin fcos R_Float one add div neg R_Num R_Signed].
    replace (1 + 1) with 2 by ring. split; reflexivity. }
  assert (UD : unit_dq a).
  { unfold a, dq_new_from_screw_parameters. cbn [sin_cos fsin fcos R_Float one add div neg R_Num R_Signed].
    replace (1 + 1) with 2 by ring. unfold unit_dq, unit_quat.
    revert SC. generalize (cos (theta / 2)) (sin (theta / 2)). unfold unit3 in U. revert U O. clear.
    intros U O c s SC. revert U O SC. rdes. rlazy. intros U O SC.
    apply (f_equal (Rmult (s * s))) in U as U2. apply (f_equal (Rmult (s * s))) in O as O2.
    apply (f_equal (Rmult (c * s * d))) in U as U3. split; lra. }
  split; [exact UD| ].
  assert (N1 : v3_norm2 (Quat.q (dq_real a)) = sin (theta / 2)).
  { rewrite (proj2 A0), v3_norm2_scale, (unit3_norm l U), Rabs_pos_eq by lra. ring. }
  assert (N : Quat.q (dq_real a) <> v3_zeros).
  { intros E. apply v3_norm2_zero in E. lra. }
  assert (AC : acos (q0 (dq_real a)) = theta / 2) by (rewrite (proj1 A0); apply acos_cos; lra).
  destruct (cot_half _ (proj1 UD) N) as (_ & _ & A).
  rewrite (get_screw_value a UD N) by (rewrite A, AC; lra).
  unfold screw_of. rewrite AC, N1, (proj2 A0), (proj1 A0).
  unfold a, dq_new_from_screw_parameters. cbn [sin_cos fsin fcos R_Float one add div neg R_Num R_Signed].
  replace (1 + 1) with 2 by ring. replace (2 * (theta / 2)) with theta by field.
  assert (S' : sin (theta / 2) <> 0) by lra. revert S'. generalize (cos (theta / 2)) (sin (theta / 2)). clear.
  intros c s S. rdes. rlazy. rpairs; field; exact S.
Qed.

(** ** powers *)

(** regular: the rotation part is there, and above the tolerance *)
Definition screw_regular (a : DQ) : Prop :=
  Quat.q (dq_real a) <> v3_zeros /\ r_eps <= 2 * acos (q0 (dq_real a)).

Lemma pow_screw (a : DQ) e : unit_dq a -> screw_regular a ->
  let '(l, m, theta, d) := screw_of a in dqval (dq_pow a e) = screw l m (e * theta) (e * d).
Proof.
  intros U [N G]. destruct (unit_acos _ (proj1 U)) as (C & S & _). pose proof (norm_pos _ N) as P.
  pose proof (eps_pos K OK) as E0.
  unfold screw_of, dq_pow, screw. cbn [sin_cos fsin fcos facos R_Float one add mul sub div neg R_Num R_Signed].
  change (q_real (dq_real a)) with (q0 (dq_real a)). replace (1 + 1) with 2 by ring.
  replace (nearly_zero (2 * acos (q0 (dq_real a)))) with false.
  2:{ symmetry. apply (nearly_zero_false OK). rewrite Rabs_pos_eq; lra. }
  replace (2 * acos (q0 (dq_real a)) / 2) with (acos (q0 (dq_real a))) by field. rewrite C, S.
  generalize (cos (e * (2 * acos (q0 (dq_real a))) / 2)) (sin (e * (2 * acos (q0 (dq_real a))) / 2)).
  assert (P' : v3_norm2 (Quat.q (dq_real a)) <> 0) by lra. revert P'.
  generalize (v3_norm2 (Quat.q (dq_real a))). clear. intros s P c1 s1. rdes. rlazy. rpairs; field; exact P.
Qed.

Lemma screw_0 l m : screw l m 0 0 = dqval (dq_one : DQ).
Proof.
  unfold screw. replace (0 / 2) with 0 by field. rewrite cos_0, sin_0. rdes. rlazy. rpairs; field.
Qed.

Lemma c39_pow_partial : forall a : DQ, unit_dq a -> screw_regular a ->
  dqval (dq_pow a 0) = dqval dq_one /\ dqval (dq_pow a 1) = dqval a
  /\ (forall s t, dqval (dq_mul (dq_pow a s) (dq_pow a t)) = dqval (dq_pow a (s + t)))
  /\ (forall s, unit_dq (dq_pow a s)).
Proof.
  intros a U N. pose proof (fun e => pow_screw a e U N) as P. pose proof (screw_of_spec a U (proj1 N)) as X.
  destruct (screw_of a) as [[[l m] th] d]. destruct X as (U3 & O & X).
  assert (M : forall s t, dqval (dq_mul (dq_pow a s) (dq_pow a t)) = dqval (dq_pow a (s + t))).
  { intros s t. rewrite (screw_mul _ _ l m (s * th) (s * d) (t * th) (t * d) U3 O (P s) (P t)), P.
    f_equal; ring. }
  split; [ |split; [ |split; [exact M| ]]].
  - rewrite P, !Rmult_0_l. apply screw_0.
  - rewrite P, !Rmult_1_l. symmetry. exact X.
  - intros s. apply (unit_dq_val (dq_new_from_screw_parameters l m (s * th) (s * d))).
    + rewrite P. apply new_from_screw_value.
    + pose proof (sin2_cos2' (s * th / 2)) as SC.
      unfold dq_new_from_screw_parameters. cbn [sin_cos fsin fcos R_Float one add div neg R_Num R_Signed].
      replace (1 + 1) with 2 by ring. unfold unit_dq, unit_quat. clear P X M N U.
      revert SC. generalize (cos (s * th / 2)) (sin (s * th / 2)) (s * d). unfold unit3 in U3. revert U3 O. clear.
      intros U O c s1 d' SC. revert U O SC. rdes. rlazy. intros U O SC.
      apply (f_equal (Rmult (s1 * s1))) in U as U2. apply (f_equal (Rmult (s1 * s1))) in O as O2.
      apply (f_equal (Rmult (c * s1 * d'))) in U as U4. split; lra.
Qed.

(** integer powers are repeated products *)
Fixpoint dq_iter (a : DQ) (n : nat) : DQ := match n with 0%nat => dq_one | S n => dq_mul (dq_iter a n) a end.

Lemma c39_pow_nat_partial : forall (a : DQ) n, unit_dq a -> screw_regular a ->
  dqval (dq_pow a (INR n)) = dqval (dq_iter a n).
Proof.
  intros a n U N. destruct (c39_pow_partial a U N) as (P0 & P1 & P & _).
  induction n as [ |n IH]; [exact P0| ].
  rewrite S_INR, <- P. cbn [dq_iter]. apply dq_mul_val; assumption.
Qed.

(** pow on a motion whose rotation is below the tolerance: for a pure
    translation the translation comes out twice too long *)
Lemma c39_pow_translation : forall (t : V3 R) e,
  dq_get_translation (dq_pow (dq_new_from_translation t) e) = v3_scale t (2 * e).
Proof.
  intros t e. unfold dq_pow. cbn [sin_cos facos R_Float one add mul R_Num].
  replace (q_real (dq_real (dq_new_from_translation t))) with 1 by reflexivity. rewrite acos_1, Rmult_0_r.
  replace (nearly_zero 0) with true by (symmetry; unfold nearly_zero; apply nearly_equal_refl).
  clear. rdes. rlazy. rpairs; field.
Qed.

Lemma c39_pow_one_refuted : exists a : DQ, unit_dq a /\ dq_normalized a = true
  /\ dqval (dq_pow a 1) <> dqval a.
Proof.
  exists (dq_new_from_translation [| 1; 0; 0 |]). split; [exact (proj1 (proj2 (proj2 c38_honest_constructors)) _)|split; [reflexivity| ]].
  intros E. apply dqval_eq in E as [E1 E2]. apply qval_parts in E1 as [A1 A2], E2 as [B1 B2].
  pose proof (c39_pow_translation [| 1; 0; 0 |] 1) as T. unfold dq_get_translation in T.
  assert (X : q_imag (q_mul (q_scale (dq_dual (dq_new_from_translation [| 1; 0; 0 |])) (1 + 1))
     (q_conj (dq_real (dq_new_from_translation [| 1; 0; 0 |])))) = v3_scale [| 1; 0; 0 |] (2 * 1)).
  { etransitivity; [ |exact T]. unfold q_mul, q_conj, q_scale, q_imag. cbn [one R_Num] in *. rewrite A1, A2, B1, B2. reflexivity. }
  apply (f_equal (fun v => vfun v 0)) in X. revert X. rlazy. lra.
Qed.

(** ** C40: screw linear interpolation *)

Lemma neg_real_unit (a : DQ) f : unit_dq a -> unit_dq (mkDQ (q_scale (dq_real a) (-1)) (dq_dual a) f).
Proof.
  intros [U D]. unfold unit_dq, unit_quat in *. revert U D. clear. rdes. rlazy. intros U D. split; lra.
Qed.

Lemma unit_inverse (a : DQ) : unit_dq a -> exists i, dq_inverse a = Ok i /\ dqval i = dqval (dq_conj a).
Proof.
  intros U. destruct (dq_inverse a) as [i| ] eqn:E.
  - exists i. split; [reflexivity| ].
    destruct (c38_inverse_two_sided_partial a i (fun _ => U) (fun _ => proj1 U) E) as [L _].
    destruct (c35_unit_conj R_ring a U) as [_ M].
    transitivity (dqval (dq_mul dq_one i)); [symmetry; apply (c35_mul_one R_ring)| ].
    rewrite <- (dq_mul_val _ i _ i M eq_refl), (c35_mul_assoc R_ring), (dq_mul_val _ _ _ _ eq_refl L).
    apply (c35_mul_one R_ring).
  - exfalso. apply c38_inverse_panic_iff in E as (_ & _ & L). destruct U as [U _]. unfold unit_quat in U.
    rewrite U in L. cbn [one R_Num] in L. pose proof (eps_small K OK). lra.
Qed.

Lemma unit_conj_unit (a : DQ) : unit_dq a -> unit_dq (dq_conj a).
Proof.
  intros [U D]. unfold unit_dq, unit_quat in *. revert U D. clear. rdes. rlazy. intros U D. split; lra.
Qed.

(** the start point actually used: [begin] itself, or [begin] with only its
    real part negated *)
Definition lerp_start (a b : DQ) : DQ :=
  if Rlt_dec (q0 (q_mul (dq_real a) (dq_real b))) 0
  then mkDQ (q_scale (dq_real a) (-1)) (dq_dual a) (dq_normalized a) else a.

Lemma lerp_value (a b : DQ) : unit_dq a -> unit_dq b ->
  let s := lerp_start a b in
  exists i, dqval i = dqval (dq_conj s) /\ unit_dq s /\ unit_dq (dq_mul i b) /\
  (forall tau, dq_screw_lerp a b tau = Ok (dq_mul s (dq_pow (dq_mul i b) tau))).
Proof.
  intros Ua Ub s.
  assert (Us : unit_dq s) by (unfold s, lerp_start; destruct Rlt_dec; [now apply neg_real_unit|exact Ua]).
  destruct (unit_inverse s Us) as (i & I & V). exists i. split; [exact V|split; [exact Us|split]].
  - apply (c35_unit_mul R_ring); [ |exact Ub].
    apply (unit_dq_val (dq_conj s)); [symmetry; exact V|now apply unit_conj_unit].
  - intros tau. unfold dq_screw_lerp. cbn [ltb R_POrd zero one R_Num neg R_Signed].
    change (q_real (q_mul (dq_real a) (dq_real b))) with (q0 (q_mul (dq_real a) (dq_real b))).
    replace (Ropp 1) with (-1) by lra. unfold s, lerp_start in *. destruct (Rltb_spec (q0 (q_mul (dq_real a) (dq_real b))) 0) as [L|L];
      destruct (Rlt_dec (q0 (q_mul (dq_real a) (dq_real b))) 0) as [L'|L']; try contradiction;
      change (q_dual_ a) with (dq_dual a); cbv beta iota; rewrite I; reflexivity.
Qed.

(** interpolation is a screw motion of constant rate from the start point to
    [b]; it never panics on unit dual quaternions *)
Lemma c40_screw_motion_partial : forall a b : DQ, unit_dq a -> unit_dq b ->
  screw_regular (dq_mul (dq_conj (lerp_start a b)) b) ->
  exists l m theta d, unit3 l /\ v3_dot l m = 0 /\
  dqval b = dqval (dq_mul (lerp_start a b) (dq_new_from_screw_parameters l m theta d)) /\
  forall tau, exists r, dq_screw_lerp a b tau = Ok r /\ unit_dq r
   /\ dqval r = dqval (dq_mul (lerp_start a b) (dq_new_from_screw_parameters l m (tau * theta) (tau * d))).
Proof.
  intros a b Ua Ub RG. destruct (lerp_value a b Ua Ub) as (i & V & Us & Ur & L).
  set (s := lerp_start a b) in *.
  assert (Vr : dqval (dq_mul i b) = dqval (dq_mul (dq_conj s) b)) by (apply dq_mul_val; [exact V|reflexivity]).
  assert (RG' : screw_regular (dq_mul i b)).
  { apply dqval_eq in Vr as [W _]. apply qval_parts in W as [W0 W1]. unfold screw_regular. rewrite W0, W1. exact RG. }
  pose proof (fun e => pow_screw _ e Ur RG') as P. pose proof (screw_of_spec _ Ur (proj1 RG')) as X.
  destruct (screw_of (dq_mul i b)) as [[[l m] th] d]. destruct X as (U3 & O & X).
  exists l, m, th, d. split; [exact U3|split; [exact O|split]].
  - transitivity (dqval (dq_mul s (dq_mul (dq_conj s) b))).
    + rewrite <- (c35_mul_assoc R_ring). destruct (c35_unit_conj R_ring s Us) as [M _].
      rewrite (dq_mul_val _ _ _ _ M eq_refl). symmetry. apply (c35_mul_one R_ring).
    + apply dq_mul_val; [reflexivity| ]. rewrite <- Vr, X, new_from_screw_value. reflexivity.
  - intros tau. eexists. split; [apply L|split].
    + apply (c35_unit_mul R_ring); [exact Us|now apply c39_pow_partial].
    + apply dq_mul_val; [reflexivity| ]. rewrite P, new_from_screw_value. reflexivity.
Qed.

(** endpoints: the end always; the start when the sign flip does not happen, or
    when the start has no translation *)
Lemma c40_endpoints_partial : forall a b : DQ, unit_dq a -> unit_dq b ->
  screw_regular (dq_mul (dq_conj (lerp_start a b)) b) ->
  (exists r, dq_screw_lerp a b 1 = Ok r /\ dqval r = dqval b)
  /\ (exists r, dq_screw_lerp a b 0 = Ok r /\ dqval r = dqval (lerp_start a b)
      /\ (0 <= q0 (q_mul (dq_real a) (dq_real b)) -> dqval r = dqval a)
      /\ (dq_get_translation a = v3_zeros -> dq_to_homogeneous r = dq_to_homogeneous a)).
Proof.
  intros a b Ua Ub RG. destruct (c40_screw_motion_partial a b Ua Ub RG) as (l & m & th & d & U3 & O & E & L).
  split.
  - destruct (L 1) as (r & Er & _ & V). exists r. split; [exact Er| ]. rewrite V, !Rmult_1_l. symmetry. exact E.
  - destruct (L 0) as (r & Er & _ & V). exists r. split; [exact Er| ].
    assert (V0 : dqval r = dqval (lerp_start a b)).
    { rewrite V, !Rmult_0_l.
      rewrite (dq_mul_val _ _ (lerp_start a b) dq_one eq_refl); [apply (c35_mul_one R_ring)| ].
      rewrite new_from_screw_value. apply screw_0. }
    split; [exact V0|split].
    + intros Hp. rewrite V0. unfold lerp_start. destruct Rlt_dec; [lra|reflexivity].
    + intros T. apply dqval_eq in V0 as [V1 V2]. apply qval_parts in V1 as [A0 A1], V2 as [B0 B1].
      unfold lerp_start in *. destruct Rlt_dec as [N|N].
      2:{ unfold dq_to_homogeneous, dq_to_rotation_translation, q_to_rotation, dq_get_translation, q_real, q_imag, q_mul, q_scale, q_conj.
          rewrite A0, A1, B0, B1. reflexivity. }
      unfold dq_to_homogeneous, dq_to_rotation_translation.
      assert (X1 : q_to_rotation (dq_real r) = q_to_rotation (dq_real a)).
      { unfold q_to_rotation, q_real, q_imag. rewrite A0, A1. clear. rdes. rlazy. rpairs; ring. }
      assert (X2 : dq_get_translation r = dq_get_translation a).
      { transitivity (v3_scale (dq_get_translation a) (-1)); [ |rewrite T; clear; rlazy; rpairs; ring].
        unfold dq_get_translation, q_imag, q_mul, q_scale, q_conj. cbn [one R_Num]. rewrite A0, A1, B0, B1.
        clear. rdes. rlazy. rpairs; ring. }
      rewrite X1, X2. reflexivity.
Qed.

(** when the flip happens the interpolation starts at a different motion: the
    translation of [a] is negated *)
Lemma c40_start_refuted : exists a b r : DQ, unit_dq a /\ unit_dq b
  /\ screw_regular (dq_mul (dq_conj (lerp_start a b)) b)
  /\ dq_screw_lerp a b 0 = Ok r /\ dq_to_homogeneous r <> dq_to_homogeneous a.
Proof.
  (* a = half turn about x and translation 2 along y; b = half turn about x *)
  set (a := dq_new (q_new_from 0 (4/5) (3/5) 0) (q_new_real 1) : DQ).
  set (b := dq_new (q_new_from 0 1 0 0) q_zero : DQ).
  assert (Ua : unit_dq a) by (split; unfold a; rlazy; field).
  assert (Ub : unit_dq b) by (split; unfold b; rlazy; field).
  assert (LS : lerp_start a b = mkDQ (q_scale (dq_real a) (-1)) (dq_dual a) false).
  { unfold lerp_start. destruct Rlt_dec as [N|N]; [reflexivity| ]. exfalso. apply N. unfold a, b. 
    lazy -[Rplus Rmult Ropp Rminus Rdiv Rinv IZR Rlt]. lra. }
  assert (RG : screw_regular (dq_mul (dq_conj (lerp_start a b)) b)).
  { rewrite LS. split.
    - intros E. apply (f_equal (fun v => vfun v 2)) in E. revert E. unfold a, b. rlazy. lra.
    - replace (q0 _) with (-(4/5)) by (unfold a, b; rlazy; field).
      pose proof (acos_bound (-(4/5))). pose proof (eps_small K OK). pose proof PI2_1.
      destruct (Rlt_le_dec (acos (-(4/5))) (PI / 2)) as [L|L]; [ |lra].
      pose proof (cos_gt_0 (acos (-(4/5))) ltac:(lra) L) as G. rewrite cos_acos in G; lra. }
  destruct (c40_endpoints_partial a b Ua Ub RG) as [_ (r & E & V & _)].
  exists a, b, r. split; [exact Ua|split; [exact Ub|split; [exact RG|split; [exact E| ]]]].
  rewrite LS in V. apply dqval_eq in V as [V1 V2]. apply qval_parts in V1 as [A0 A1], V2 as [B0 B1].
  intros H. apply (f_equal (fun A => mfun A 0 3)) in H.
  change (mfun (dq_to_homogeneous r) 0 3) with (vfun (dq_get_translation r) 0) in H.
  unfold dq_get_translation, q_imag, q_mul, q_scale, q_conj in H. rewrite A0, A1, B0, B1 in H.
  revert H. unfold a, b. rlazy. lra.
Qed.

(** relative motions that are pure translations: the end point is missed *)
Lemma c40_end_refuted : exists a b r : DQ, unit_dq a /\ unit_dq b
  /\ dq_screw_lerp a b 1 = Ok r /\ dq_to_homogeneous r <> dq_to_homogeneous b.
Proof.
  exists dq_one, (dq_new_from_translation [| 1; 0; 0 |]).
  assert (Ub : unit_dq (dq_new_from_translation [| 1; 0; 0 |] : DQ)) by (split; rlazy; field).
  assert (Ua : unit_dq (dq_one : DQ)) by (split; rlazy; field).
  destruct (lerp_value dq_one _ Ua Ub) as (i & V & _ & _ & L).
  assert (LS : lerp_start dq_one (dq_new_from_translation [| 1; 0; 0 |]) = dq_one).
  { unfold lerp_start. destruct Rlt_dec as [N|N]; [ |reflexivity]. exfalso. revert N.
    lazy -[Rplus Rmult Ropp Rminus Rdiv Rinv IZR Rlt]. lra. }
  rewrite LS in *. eexists. split; [exact Ua|split; [exact Ub|split; [apply L| ]]].
  assert (W : dqval (dq_mul i (dq_new_from_translation [| 1; 0; 0 |])) = dqval (dq_new_from_translation [| 1; 0; 0 |])).
  { rewrite (dq_mul_val _ _ (dq_conj dq_one) _ V eq_refl). rlazy. rpairs; field. }
  set (c := dq_mul i _) in *. clearbody c. apply dqval_eq in W as [W1 W2].
  apply qval_parts in W1 as [A0 A1], W2 as [B0 B1].
  assert (P : dq_pow c 1 = dq_pow (dq_new_from_translation [| 1; 0; 0 |]) 1).
  { unfold dq_pow, dq_get_translation, q_imag, q_real, q_mul, q_scale, q_conj. rewrite A0, A1, B0, B1. reflexivity. }
  rewrite P. clear P A0 A1 B0 B1 c V L i. intros H. apply (f_equal (fun A => mfun A 0 3)) in H.
  set (p := dq_pow _ _) in *. 
  assert (T : dq_get_translation (dq_mul dq_one p) = dq_get_translation p) by (clear; rr).
  change (vfun (dq_get_translation (dq_mul dq_one p)) 0
     = vfun (dq_get_translation (dq_new_from_translation [| 1; 0; 0 |] : DQ)) 0) in H.
  rewrite T in H. unfold p in H. rewrite c39_pow_translation in H. revert H. rlazy. lra.
Qed.

(** ** C41: division *)

Lemma q_mul_val (x y z w : Q) : qval x = qval z -> qval y = qval w -> qval (q_mul x y) = qval (q_mul z w).
Proof. intros X Y. rewrite !(c26_mul_hamilton R_ring), X, Y. reflexivity. Qed.

(** the real part of the quotient is right; the dual part is when the real part
    of the divisor commutes with both dual parts (in particular when it is a
    real number) *)
Lemma c41_div_mul_partial : forall a b c : DQ, dq_div a b = Ok c ->
  qval (dq_real (dq_mul c b)) = qval (dq_real a)
  /\ (qval (q_mul (dq_real b) (dq_dual a)) = qval (q_mul (dq_dual a) (dq_real b)) ->
      qval (q_mul (dq_real b) (dq_dual b)) = qval (q_mul (dq_dual b) (dq_real b)) ->
      dqval (dq_mul c b) = dqval a).
Proof.
  intros a b c E. unfold dq_div in E. change (q_real_ b) with (dq_real b) in E.
  change (q_real_ a) with (dq_real a) in E. change (q_dual_ a) with (dq_dual a) in E.
  change (q_dual_ b) with (dq_dual b) in E.
  set (r := dq_real b) in *. set (d := dq_dual b) in *. set (ra := dq_real a) in *. set (da := dq_dual a) in *.
  assert (HN : honest (q_mul r r)) by (intros F; discriminate F).
  unfold q_div in E. destruct (q_inverse (q_mul r r)) as [i| ] eqn:I; cbn [unwrap bind] in E; [ |discriminate].
  injection E as <-. destruct (c32_inverse_two_sided OK _ i HN I) as [L1 L2].
  assert (ID : forall x y : Q, qval x = (1, 0, 0, 0) -> qval (q_mul x y) = qval y /\ qval (q_mul y x) = qval y).
  { clear. intros x y X. rewrite !(c26_mul_hamilton R_ring), X. split; rr. }
  (* j = i r is the inverse of r *)
  assert (J1 : qval (q_mul (q_mul i r) r) = (1, 0, 0, 0)) by (rewrite (c26_mul_assoc R_ring); exact L2).
  assert (J2 : qval (q_mul r (q_mul r i)) = (1, 0, 0, 0)) by (rewrite <- (c26_mul_assoc R_ring); exact L1).
  assert (JJ : qval (q_mul r i) = qval (q_mul i r)).
  { transitivity (qval (q_mul (q_mul (q_mul i r) r) (q_mul r i))); [symmetry; now apply ID| ].
    rewrite (c26_mul_assoc R_ring). now apply ID. }
  assert (R1 : qval (q_mul (q_mul (q_mul ra r) i) r) = qval ra).
  { rewrite (c26_mul_assoc R_ring (q_mul ra r)), (c26_mul_assoc R_ring ra).
    assert (qval (q_mul r (q_mul i r)) = (1, 0, 0, 0)) as Z.
    { rewrite (q_mul_val _ _ r (q_mul r i) eq_refl (eq_sym JJ)). exact J2. }
    now apply ID. }
  split; [exact R1| ]. intros Ca Cb. apply dqval_eq. split; [exact R1| ].
  change (qval (q_add (q_mul (q_mul (q_mul ra r) i) d) (q_mul (q_mul (q_sub (q_mul r da) (q_mul ra d)) i) r)) = qval da).
  (* r commutes with d, hence so does i r *)
  assert (K1 : qval (q_mul (q_mul (q_mul ra r) i) d) = qval (q_mul (q_mul (q_mul ra d) i) r)).
  { rewrite !(c26_mul_assoc R_ring). rewrite <- !(c26_mul_assoc R_ring r). 
    transitivity (qval (q_mul ra (q_mul (q_mul i r) d))).
    { apply q_mul_val; [reflexivity|apply q_mul_val; [exact JJ|reflexivity]]. }
    apply q_mul_val; [reflexivity| ].
    set (j := q_mul i r) in *.
    (* j d = j d r j = j r d j = d j *)
    assert (Z : qval (q_mul r j) = (1, 0, 0, 0)) by (rewrite (q_mul_val _ _ r (q_mul r i) eq_refl (eq_sym JJ)); exact J2).
    transitivity (qval (q_mul (q_mul j d) (q_mul r j))); [symmetry; now apply ID| ].
    transitivity (qval (q_mul (q_mul j r) (q_mul d j))); [ |now apply ID].
    rewrite <- (c26_mul_assoc R_ring (q_mul j d) r j), (c26_mul_assoc R_ring j d r).
    rewrite <- (c26_mul_assoc R_ring (q_mul j r) d j), (c26_mul_assoc R_ring j r d).
    apply q_mul_val; [apply q_mul_val; [reflexivity|symmetry; exact Cb]|reflexivity]. }
  assert (K2 : qval (q_mul (q_mul (q_mul r da) i) r) = qval da).
  { transitivity (qval (q_mul (q_mul (q_mul da r) i) r)).
    - apply q_mul_val; [apply q_mul_val; [exact Ca|reflexivity]|reflexivity].
    - rewrite (c26_mul_assoc R_ring (q_mul da r)), (c26_mul_assoc R_ring da).
      assert (qval (q_mul r (q_mul i r)) = (1, 0, 0, 0)) as Z.
      { rewrite (q_mul_val _ _ r (q_mul r i) eq_refl (eq_sym JJ)). exact J2. }
      now apply ID. }
  assert (SB : q_mul (q_mul (q_sub (q_mul r da) (q_mul ra d)) i) r
    = q_sub (q_mul (q_mul (q_mul r da) i) r) (q_mul (q_mul (q_mul ra d) i) r)) by (clear; rr).
  rewrite SB. revert K1 K2. generalize (q_mul (q_mul (q_mul ra r) i) d) (q_mul (q_mul (q_mul ra d) i) r) (q_mul (q_mul (q_mul r da) i) r).
  clear. intros x y z E1 E2. apply qval_parts in E1 as [A1 B1], E2 as [A2 B2].
  unfold q_add, q_sub, qval, q_new. cbn [Quat.q0 Quat.q]. rewrite A1, B1, A2, B2. clear. rr.
Qed.

Lemma c41_div_panic_iff : forall a b : DQ, dq_div a b = Panic <-> qnormsq (dq_real b) * qnormsq (dq_real b) < r_eps.
Proof.
  intros a b. unfold dq_div. change (q_real_ b) with (dq_real b).
  assert (M : qnormsq (q_mul (dq_real b) (dq_real b)) = qnormsq (dq_real b) * qnormsq (dq_real b)) by (clear; rr).
  assert (F : forall p, q_div p (q_mul (dq_real b) (dq_real b)) = Panic <-> qnormsq (dq_real b) * qnormsq (dq_real b) < r_eps).
  { intros p. rewrite (c32_div_panic_iff OK), M. cbn [normalized q_mul q_new]. intuition. }
  split.
  - destruct (q_div (q_mul (q_real_ a) (dq_real b)) _) eqn:E1; [ |intros _; now apply F in E1].
    cbn [bind]. destruct (q_div (q_sub _ _) _) eqn:E2; [discriminate|intros _; now apply F in E2].
  - intros L. assert (L' := proj2 (F (q_mul (q_real_ a) (dq_real b))) L). rewrite L'. reflexivity.
Qed.

Lemma c41_div_refuted : exists a b c : DQ, unit_dq a /\ unit_dq b /\ dq_div a b = Ok c
  /\ dqval (dq_mul c b) <> dqval a.
Proof.
  exists (dq_new_from_translation [| 0; 2; 0 |]), (dq_new (q_new_from 0 1 0 0) q_zero).
  assert (I : q_inverse (q_mul (q_new_from 0 1 0 0) (q_new_from 0 1 0 0) : Q) = Some (q_new_from (-1) 0 0 0)).
  { destruct (q_inverse (q_mul (q_new_from 0 1 0 0) (q_new_from 0 1 0 0))) as [i| ] eqn:E.
    - unfold q_inverse in E. cbn [normalized q_mul q_new q_new_from] in E.
      change (negb false) with true in E. cbv iota zeta in E. destruct (negb (nearly_zero _)); [ |discriminate]. injection E as <-. f_equal. rlazy. f_equal; [field|rpairs; field].
    - exfalso. apply (c32_inverse_none_iff OK) in E as [_ L]. revert L. pose proof (eps_small K OK) as S. revert S.
      replace (qnormsq _) with 1 by (rlazy; ring). lra. }
  eexists. split; [split; rlazy; field|split; [split; rlazy; field|split]].
  - unfold dq_div. cbn [q_real_ dq_new]. unfold q_div. rewrite I. cbn [unwrap bind]. reflexivity.
  - intros E. apply (f_equal (fun x => snd (fst (snd x)))) in E. revert E. rlazy. lra.
Qed.

(** ** C56: logarithm *)

(** Specification of the flagged regular case: half the rotation vector in the
    real part, half the translation in the dual part *)
Lemma c56_log : forall a : DQ,
  (dq_log a = Ok None <-> dq_normalized a = false)
  /\ (dq_log a = Panic <-> dq_normalized a = true /\ q_get_axis (dq_real a) = None)
  /\ (forall b, dq_log a = Ok (Some b) -> dq_normalized a = true /\
       exists u, q_get_axis (dq_real a) = Some u
       /\ qval (dq_real b) = (0, q_get_angle (dq_real a) / 2 * vfun u 0, q_get_angle (dq_real a) / 2 * vfun u 1,
                               q_get_angle (dq_real a) / 2 * vfun u 2)
       /\ v3_scale (Quat.q (dq_dual b)) 2 = dq_get_translation a /\ q0 (dq_dual b) = 0).
Proof.
  intros a. unfold dq_log, q_axis_angle. set (g := q_get_angle (dq_real a)). clearbody g. destruct (dq_normalized a); cbv zeta beta iota.
  - destruct (q_get_axis (dq_real a)) as [u| ] eqn:G; cbn [unwrap bind].
    + split; [split; discriminate|split; [split; [discriminate|intros [_ X]; discriminate X]| ]].
      intros b E. injection E as <-. split; [reflexivity| ]. exists u. split; [reflexivity| ].
      generalize (dq_get_translation a). clear. intros t.
      split; [ |split; [ |reflexivity]]; rdes; rlazy; rpairs; field.
    + split; [split; discriminate|split; [split; [auto|reflexivity]|discriminate]].
  - split; [split; reflexivity|split; [split; [discriminate|intros [X _]; discriminate X]|discriminate]].
Qed.

(** pure translations, the identity included, make it panic *)
Lemma c56_log_total_refuted : forall t : V3 R, dq_log (dq_new_from_translation t) = Panic
  /\ dq_log (dq_one : DQ) = Panic.
Proof.
  assert (G : q_get_axis (q_one : Q) = None).
  { unfold q_get_axis, q_normalize. cbn [normalized q_one]. unfold q_get_angle.
    replace (v3_norm2 (Quat.q (q_one : Q))) with 0.
    2:{ symmetry. apply v3_norm2_zero. reflexivity. }
    cbn [fatan2 R_Float q0 q_one one R_Num zero]. 
    replace (Ratan2 0 1) with 0.
    2:{ pose proof PI_RGT_0. pose proof (Ratan2_polar 0 1 ltac:(lra) ltac:(lra)) as A.
        rewrite sin_0, cos_0, Rmult_0_r, Rmult_1_r in A. symmetry. exact A. }
    cbn [add mul div R_Num fsin R_Float lit_2 epsilon ltb R_POrd abs R_Signed].
    replace ((1 + 1) * 0 / 2) with 0 by field. rewrite sin_0, Rabs_R0.
    destruct (Rltb_spec r_eps 0) as [L|L]; [ |reflexivity]. pose proof (eps_pos K OK). lra. }
  intros t. split; apply c56_log; (split; [reflexivity|exact G]).
Qed.

End R.

(** ** concrete cases *)
Section Examples.
#[local] Existing Instance f64_consts.

(** rotation about z (cosine of the half angle 3/5) with a translation *)
Definition ex_dq : DualQuaternion R := dq_new (q_new_from (3/5) 0 0 (4/5)) (q_new_from (4/5) 1 2 (-3/5)).

Lemma ex_dq_unit : unit_dq ex_dq.
Proof. split; unfold ex_dq; rlazy; field. Qed.

Lemma acos_large x : -1 <= x <= 4/5 -> r_eps <= 2 * acos x.
Proof.
  intros B. pose proof (acos_bound x) as [A _]. pose proof (eps_small _ f64_consts_ok).
  destruct (Rle_lt_dec (/1000) (acos x)) as [L|L]; [lra| ].
  pose proof (sin2_cos2' (acos x)) as S. rewrite cos_acos in S by lra.
  assert (sin (acos x) <= acos x) by (apply sin_le_x; exact A).
  pose proof PI2_1. assert (0 <= sin (acos x)) by (apply sin_ge_0; lra).
  assert (sin (acos x) * sin (acos x) <= / 1000 * / 1000) by (apply Rmult_le_compat; lra).
  exfalso. destruct (Rle_lt_dec 0 x) as [X|X].
  - assert (x * x <= 4/5 * (4/5)) by (apply Rmult_le_compat; lra). lra.
  - pose proof (cos_gt_0 (acos x) ltac:(lra) ltac:(lra)) as G. rewrite cos_acos in G; lra.
Qed.

Example C39_example : unit_dq ex_dq /\ screw_regular ex_dq /\ r_eps <= q_get_angle (dq_real ex_dq).
Proof.
  assert (N : Quat.q (dq_real ex_dq) <> v3_zeros).
  { intros E. apply (f_equal (fun v => vfun v 2)) in E. revert E. unfold ex_dq. rlazy. lra. }
  assert (L : r_eps <= 2 * acos (q0 (dq_real ex_dq))) by (apply acos_large; cbn; lra).
  split; [exact ex_dq_unit|split; [split; assumption| ]].
  destruct (cot_half _ (proj1 ex_dq_unit) N) as (_ & _ & ->). exact L.
Qed.

(** the sign flip does not happen here, and the relative motion is regular *)
Example C40_example : unit_dq (dq_one : DualQuaternion R) /\ unit_dq ex_dq
  /\ screw_regular (dq_mul (dq_conj (lerp_start dq_one ex_dq)) ex_dq)
  /\ 0 <= q0 (q_mul (dq_real dq_one) (dq_real ex_dq)).
Proof.
  assert (P : 0 <= q0 (q_mul (dq_real dq_one) (dq_real ex_dq))).
  { replace (q0 _) with (3/5) by (unfold ex_dq; rlazy; field). lra. }
  assert (LS : lerp_start dq_one ex_dq = dq_one) by (unfold lerp_start; destruct Rlt_dec; [lra|reflexivity]).
  split; [split; rlazy; field|split; [exact ex_dq_unit|split; [ |exact P]]]. rewrite LS. split.
  - intros E. apply (f_equal (fun v => vfun v 2)) in E. revert E. unfold ex_dq. rlazy. lra.
  - replace (q0 _) with (3/5) by (unfold ex_dq; rlazy; field). apply acos_large. lra.
Qed.

Example C37_example : SE3 (dq_to_homogeneous ex_dq) /\ dq_get_translation ex_dq <> v3_zeros.
Proof.
  split; [apply (c36_to_homogeneous_SE3 R_ring), ex_dq_unit| ].
  intros E. apply (f_equal (fun v => vfun v 0)) in E. revert E. unfold ex_dq. rlazy. lra.
Qed.

(** an unflagged, non-unit dual quaternion that has an inverse *)
Example C38_example : let a := dq_new (q_new_from 0 2 0 0) (q_new_from 1 2 3 4) in
  dq_honest a /\ honest (dq_real a) /\ exists b, dq_inverse a = Ok b.
Proof.
  intros a. split; [intros F; discriminate F|split; [intros F; discriminate F| ]].
  destruct (dq_inverse a) as [b| ] eqn:E; [eauto| ]. apply (c38_inverse_panic_iff f64_consts_ok) in E as (_ & _ & L).
  exfalso. revert L. replace (qnormsq (dq_real a)) with 4 by (unfold a; rlazy; ring).
  pose proof (eps_small _ f64_consts_ok). lra.
Qed.

(** division by a dual quaternion with a real number as its real part *)
Example C41_example : let b := dq_new (q_new_real 2) (q_new_from 1 2 3 4) in
  (exists c, dq_div ex_dq b = Ok c)
  /\ qval (q_mul (dq_real b) (dq_dual ex_dq)) = qval (q_mul (dq_dual ex_dq) (dq_real b))
  /\ qval (q_mul (dq_real b) (dq_dual b)) = qval (q_mul (dq_dual b) (dq_real b)).
Proof.
  intros b. split; [ |split; unfold ex_dq, b; rlazy; rpairs; field].
  destruct (dq_div ex_dq b) as [c| ] eqn:E; [eauto| ]. apply (c41_div_panic_iff f64_consts_ok) in E.
  exfalso. revert E. replace (qnormsq (dq_real b)) with 4 by (unfold b; rlazy; ring).
  pose proof (eps_small _ f64_consts_ok). lra.
Qed.
End Examples.
