(** * ProofsRot: rotation matrices over the reals: C25, C28, C30, C42 (rest),
      C48, C51, C52 *)

From Coq Require Import List Arith Lia Bool Reals Lra Psatz.
From Verif Require Import Base Scalar Vec Mat2 Mat3 Mat4 Mat6 Slices MatLoops MatOps Quat Transf
  DualQuat RingDet Spec Entries DetEntries InstR RFacts TrigFacts ProofsRing ProofsInverse ProofsNorm
  ProofsQuat ProofsRigid.
Import ListNotations.
Local Open Scope R_scope.

Ltac rlazy := lazy -[Rplus Rmult Ropp Rminus Rdiv Rinv IZR sqrt sin cos PI].
Ltac rdestruct := repeat match goal with
  | a : DualQuaternion _ |- _ => destruct a as [? ? ?]
  end; qdes.
Ltac rr := intros; rdes; rlazy; rpairs; ring.

(** the relations of SO(3), entry by entry *)
Lemma SO3_relations (a b c d e f g h i : R) :
  SO3 ([| [| a; b; c |]; [| d; e; f |]; [| g; h; i |] |] : M33 R) ->
  (a * a + d * d + g * g = 1 /\ b * b + e * e + h * h = 1 /\ c * c + f * f + i * i = 1
   /\ a * b + d * e + g * h = 0 /\ a * c + d * f + g * i = 0 /\ b * c + e * f + h * i = 0)
  /\ (a * a + b * b + c * c = 1 /\ d * d + e * e + f * f = 1 /\ g * g + h * h + i * i = 1
   /\ a * d + b * e + c * f = 0 /\ a * g + b * h + c * i = 0 /\ d * g + e * h + f * i = 0)
  /\ (e * i - f * h = a /\ f * g - d * i = b /\ d * h - e * g = c
   /\ h * c - i * b = d /\ i * a - g * c = e /\ g * b - h * a = f
   /\ b * f - c * e = g /\ c * d - a * f = h /\ a * e - b * d = i).
Proof.
  intros H. pose proof (SO3_cof R_ring _ H) as C. destruct H as (H1 & H2 & _).
  revert H1 H2 C. rlazy. intros H1 H2 C. injection H1. injection H2. injection C. intros.
  repeat split; lra.
Qed.

(** ** nearly_equal over the reals *)
Section Near.
Context {K : RConsts} (OK : RConstsOk K).

Lemma nearly_equal_refl (x tol : R) : nearly_equal x x tol = true.
Proof.
  unfold nearly_equal. cbn [eqb R_Num].
  replace (Reqb x x) with true by (symmetry; apply Reqb_true; reflexivity). reflexivity.
Qed.

Lemma nearly_equal_iff (x y tol : R) : 0 < tol ->
  (nearly_equal x y tol = true <->
   if Req_EM_T y 0 then Rabs (x - y) < tol
   else if Req_EM_T x 0 then Rabs (x - y) < tol
   else Rabs (x - y) < tol * Rmin (Rabs x + Rabs y) r_max).
Proof.
  intros Ht. pose proof (max_large K OK) as Hm.
  unfold nearly_equal. cbn [eqb R_Num abs R_Signed sub add ltb R_POrd zero div fmin max_value min_value R_Float].
  replace (Rltb (Rabs x + Rabs y) (- r_max)) with false.
  2:{ symmetry. apply Rltb_false. pose proof (Rabs_pos x). pose proof (Rabs_pos y). lra. }
  destruct (Reqb_spec x y) as [->|Nxy].
  { replace (y - y) with 0 by ring. rewrite Rabs_R0.
    destruct (Req_EM_T y 0) as [E|E]; [tauto| ].
    pose proof (Rabs_pos_lt y E). split; [intros _|reflexivity].
    apply Rmult_lt_0_compat; [exact Ht| ]. apply Rmin_glb_lt; lra. }
  destruct (Req_EM_T y 0) as [->|Ny].
  { replace (Reqb 0 0) with true by (symmetry; apply Reqb_true; reflexivity).
    rewrite orb_true_r. cbn [orb]. apply Rltb_true. }
  destruct (Req_EM_T x 0) as [->|Nx].
  { replace (Reqb 0 0) with true by (symmetry; apply Reqb_true; reflexivity).
    cbn [orb]. apply Rltb_true. }
  replace (Reqb x 0) with false by (symmetry; apply Reqb_false; exact Nx).
  replace (Reqb y 0) with false by (symmetry; apply Reqb_false; exact Ny). cbn [orb].
  rewrite Rltb_true. pose proof (Rabs_pos_lt x Nx). pose proof (Rabs_pos_lt y Ny).
  set (m := Rmin (Rabs x + Rabs y) r_max).
  assert (Hm' : 0 < m) by (apply Rmin_glb_lt; lra).
  split; intros L.
  - apply (Rmult_lt_compat_r m) in L; [ |exact Hm'].
    unfold Rdiv in L. rewrite Rmult_assoc, Rinv_l, Rmult_1_r in L by lra. exact L.
  - apply (Rmult_lt_reg_r m); [exact Hm'| ].
    unfold Rdiv. rewrite Rmult_assoc, Rinv_l, Rmult_1_r by lra. exact L.
Qed.

Lemma nearly_equal_one (x tol : R) : 0 < tol -> tol < / 100 -> nearly_equal x 1 tol = true ->
  Rabs (x - 1) < 3 * tol.
Proof.
  intros Ht Ht' H. apply nearly_equal_iff in H; [ |exact Ht].
  destruct (Req_EM_T 1 0); [lra| ]. destruct (Req_EM_T x 0) as [->| ].
  { lra. }
  assert (L : Rabs (x - 1) < tol * (Rabs x + Rabs 1)).
  { apply Rlt_le_trans with (1 := H). apply Rmult_le_compat_l; [lra| ]. apply Rmin_l. }
  rewrite Rabs_R1 in L. revert L. unfold Rabs. repeat destruct Rcase_abs; intros; nra.
Qed.

(** ** C25: is_rotation *)

Lemma c25_accepts_rotations_partial : forall r : M33 R, SO3 r -> is_rotation r = true.
Proof.
  intros r (_ & _ & D). rewrite <- (m33_det_ldet R_ring) in D. cbn [one R_Num] in D.
  unfold is_rotation. rewrite (c05_det_mul R_ring D3 r r : m33_det (m33_mul r r) = _).
  change (d_det D3 r) with (m33_det r). rewrite D. cbn [one mul R_Num].
  rewrite Rmult_1_l, nearly_equal_refl. reflexivity.
Qed.

Lemma c25_accepts_rigid_partial : forall r : M44 R, SE3 r -> is_rotation_h r = true.
Proof.
  intros r H.
  assert (D : m44_det r = 1).
  { rewrite (SE3_form r H). destruct H as ((_ & _ & D) & _).
    rewrite <- (m33_det_ldet R_ring) in D. cbn [one R_Num] in D. rewrite <- D.
    generalize (rot_of r) (trans_of r). clear. rr. }
  unfold is_rotation_h. rewrite (c05_det_mul R_ring D4 r r : m44_det (m44_mul r r) = _).
  change (d_det D4 r) with (m44_det r). rewrite D. cbn [one mul R_Num].
  rewrite Rmult_1_l, nearly_equal_refl. reflexivity.
Qed.

(** what acceptance does guarantee: the determinant is close to one *)
Lemma c25_accepted_det_partial : forall r : M33 R, is_rotation r = true ->
  Rabs (ldet 3 (mfun r) - 1) < 3 * r_eps.
Proof.
  intros r H. unfold is_rotation in H. apply andb_true_iff in H. destruct H as [H _].
  rewrite <- (m33_det_ldet R_ring). pose proof (eps_pos K OK). pose proof (eps_small K OK).
  apply nearly_equal_one; auto. lra.
Qed.

(** but not orthogonality: a stretch by 2 and 1/2 is accepted *)
Lemma c25_is_rotation_refuted : exists r : M33 R,
  is_rotation r = true /\ mfun (m33_mul (m33_transpose r) r) 0 0 = 4.
Proof.
  exists ([| [| 2; 0; 0 |]; [| 0; / 2; 0 |]; [| 0; 0; 1 |] |]).
  assert (D : forall a b, a = 1 -> b = 1 ->
     (nearly_equal a 1 r_eps && nearly_equal b 1 r_eps)%bool = true).
  { intros ? ? -> ->. rewrite nearly_equal_refl. reflexivity. }
  split; [ |rlazy; ring]. apply D; rlazy; field.
Qed.

Lemma c25_is_rotation_h_refuted : exists r : M44 R,
  is_rotation_h r = true /\ ~ SE3 r /\ mfun r 3 0 = 7
  /\ mfun (m33_mul (m33_transpose (rot_of r)) (rot_of r)) 0 0 = 4.
Proof.
  exists ([| [| 2; 0; 0; 0 |]; [| 0; / 2; 0; 0 |]; [| 0; 0; 1; 0 |]; [| 7; 0; 0; 1 |] |]).
  assert (D : forall a b, a = 1 -> b = 1 ->
     (nearly_equal a 1 r_1em6 && nearly_equal b 1 r_1em6)%bool = true).
  { intros ? ? -> ->. rewrite nearly_equal_refl. reflexivity. }
  split; [apply D; rlazy; field| ]. split; [ |split; [reflexivity|rlazy; ring]].
  intros (_ & E & _). revert E. rlazy. lra.
Qed.

(** ** C28: from_rotation inverts to_rotation *)

(** the symmetric matrix 4 q q^T in terms of the rotation *)
Definition qq (r : M33 R) (i j : nat) : R :=
  match i, j with
  | 0, 0 => (1 + mfun r 0 0 + mfun r 1 1 + mfun r 2 2)%R
  | 1, 1 => (1 + mfun r 0 0 - mfun r 1 1 - mfun r 2 2)%R
  | 2, 2 => (1 - mfun r 0 0 + mfun r 1 1 - mfun r 2 2)%R
  | 3, 3 => (1 - mfun r 0 0 - mfun r 1 1 + mfun r 2 2)%R
  | 0, 1 | 1, 0 => (mfun r 2 1 - mfun r 1 2)%R
  | 0, 2 | 2, 0 => (mfun r 0 2 - mfun r 2 0)%R
  | 0, 3 | 3, 0 => (mfun r 1 0 - mfun r 0 1)%R
  | 1, 2 | 2, 1 => (mfun r 0 1 + mfun r 1 0)%R
  | 1, 3 | 3, 1 => (mfun r 0 2 + mfun r 2 0)%R
  | 2, 3 | 3, 2 => (mfun r 1 2 + mfun r 2 1)%R
  | _, _ => (0)%R
  end%nat.

Lemma qq_rank_one r : SO3 r -> forall i j k, (i < 4)%nat -> (j < 4)%nat -> (k < 4)%nat ->
  qq r i j * qq r i k = qq r i i * qq r j k.
Proof.
  intros H. destruct r as ((a & b & c & []) & (d & e & f & []) & (g & h & l & []) & []).
  apply SO3_relations in H.
  destruct H as ((? & ? & ? & ? & ? & ?) & (? & ? & ? & ? & ? & ?) & (? & ? & ? & ? & ? & ? & ? & ? & ?)).
  intros i j k Hi Hj Hk. all_lt i Hi; all_lt j Hj; all_lt k Hk; cbn [qq];
  unfold mfun; cbn [map alist nth]; cbn -[Rplus Rmult Rminus IZR];  lra.
Qed.

(** from row [i] of 4 q q^T *)
Lemma from_row r i q : SO3 r -> (i < 4)%nat -> 0 < qq r i i ->
  qval q = (qq r i 0 * (1 / 2) / sqrt (qq r i i), qq r i 1 * (1 / 2) / sqrt (qq r i i),
            qq r i 2 * (1 / 2) / sqrt (qq r i i), qq r i 3 * (1 / 2) / sqrt (qq r i i)) ->
  unit_quat q /\ q_to_rotation q = r.
Proof.
  intros H Hi P E.
  assert (X : forall j k, (j < 4)%nat -> (k < 4)%nat ->
    qq r i j * (1 / 2) / sqrt (qq r i i) * (qq r i k * (1 / 2) / sqrt (qq r i i)) = qq r j k / 4).
  { intros j k Hj Hk. assert (S : 0 < sqrt (qq r i i)) by (apply sqrt_lt_R0; exact P).
    replace (qq r j k / 4) with (qq r i i * qq r j k / (4 * (sqrt (qq r i i) * sqrt (qq r i i))))
      by (rewrite sqrt_sqrt by lra; field; lra).
    rewrite <- (qq_rank_one r H i j k) by assumption. field. lra. }
  destruct q as [w (x & y & z & []) n]. unfold qval in E. cbn [q0 q] in E.
  injection E as Ew Ex Ey Ez.
  pose proof (X 0 0 ltac:(lia) ltac:(lia))%nat as X00. pose proof (X 1 1 ltac:(lia) ltac:(lia))%nat as X11.
  pose proof (X 2 2 ltac:(lia) ltac:(lia))%nat as X22. pose proof (X 3 3 ltac:(lia) ltac:(lia))%nat as X33.
  pose proof (X 0 1 ltac:(lia) ltac:(lia))%nat as X01. pose proof (X 0 2 ltac:(lia) ltac:(lia))%nat as X02.
  pose proof (X 0 3 ltac:(lia) ltac:(lia))%nat as X03. pose proof (X 1 2 ltac:(lia) ltac:(lia))%nat as X12.
  pose proof (X 1 3 ltac:(lia) ltac:(lia))%nat as X13. pose proof (X 2 3 ltac:(lia) ltac:(lia))%nat as X23.
  rewrite <- ?Ew, <- ?Ex, <- ?Ey, <- ?Ez in *. clear X Ew Ex Ey Ez H P Hi.
  destruct r as ((a & b & c & []) & (d & e & f & []) & (g & h & l & []) & []).
  revert X00 X11 X22 X33 X01 X02 X03 X12 X13 X23. cbn [qq]. rlazy. intros.
  split; [lra| ]. rpairs; lra.
Qed.

Lemma c28_from_rotation : forall r : M33 R, SO3 r ->
  unit_quat (q_from_rotation r) /\ q_to_rotation (q_from_rotation r) = r.
Proof.
  intros r H.
  assert (B : exists i, (i < 4)%nat /\ 1 <= qq r i i /\
    qval (q_from_rotation r)
    = (qq r i 0 * (1 / 2) / sqrt (qq r i i), qq r i 1 * (1 / 2) / sqrt (qq r i i),
       qq r i 2 * (1 / 2) / sqrt (qq r i i), qq r i 3 * (1 / 2) / sqrt (qq r i i))).
  { clear H. destruct r as ((a & b & c & []) & (d & e & f & []) & (g & h & l & []) & []).
    unfold q_from_rotation.
    cbn -[Rplus Rmult Rminus Ropp Rdiv Rltb IZR sqrt q_div_s q_scale q_new_from].
    destruct (Rltb_spec l 0).
    - destruct (Rltb_spec e a).
      + exists 1%nat. cbn [qq]. rlazy. split; [lia| ]. split; [lra| ].
        replace (1 / (1 + 1)) with (1 / 2) by lra. unfold Rdiv; rpairs; ring.
      + exists 2%nat. cbn [qq]. rlazy. split; [lia| ]. split; [lra| ].
        replace (1 / (1 + 1)) with (1 / 2) by lra. unfold Rdiv; rpairs; ring.
    - destruct (Rltb_spec a (- e)).
      + exists 3%nat. cbn [qq]. rlazy. split; [lia| ]. split; [lra| ].
        replace (1 / (1 + 1)) with (1 / 2) by lra. unfold Rdiv; rpairs; ring.
      + exists 0%nat. cbn [qq]. rlazy. split; [lia| ]. split; [lra| ].
        replace (1 / (1 + 1)) with (1 / 2) by lra. unfold Rdiv; rpairs; ring. }
  destruct B as (i & Hi & P & E). apply (from_row r i); auto; lra.
Qed.

(** a unit quaternion is recovered up to sign *)
Lemma products_determine (p0 p1 p2 p3 q0 q1 q2 q3 : R) :
  p0 * p0 = q0 * q0 -> p1 * p1 = q1 * q1 -> p2 * p2 = q2 * q2 -> p3 * p3 = q3 * q3 ->
  p0 * p1 = q0 * q1 -> p0 * p2 = q0 * q2 -> p0 * p3 = q0 * q3 ->
  p1 * p2 = q1 * q2 -> p1 * p3 = q1 * q3 -> p2 * p3 = q2 * q3 ->
  q0 * q0 + q1 * q1 + q2 * q2 + q3 * q3 = 1 ->
  (p0 = q0 /\ p1 = q1 /\ p2 = q2 /\ p3 = q3) \/ (p0 = - q0 /\ p1 = - q1 /\ p2 = - q2 /\ p3 = - q3).
Proof.
  intros E00 E11 E22 E33 E01 E02 E03 E12 E13 E23 N.
  set (s := p0 * q0 + p1 * q1 + p2 * q2 + p3 * q3).
  assert (S : s * s = 1).
  { unfold s.
    replace ((p0 * q0 + p1 * q1 + p2 * q2 + p3 * q3) * (p0 * q0 + p1 * q1 + p2 * q2 + p3 * q3))
    with (p0 * p0 * (q0 * q0) + p1 * p1 * (q1 * q1) + p2 * p2 * (q2 * q2) + p3 * p3 * (q3 * q3)
      + 2 * (p0 * p1 * (q0 * q1)) + 2 * (p0 * p2 * (q0 * q2)) + 2 * (p0 * p3 * (q0 * q3))
      + 2 * (p1 * p2 * (q1 * q2)) + 2 * (p1 * p3 * (q1 * q3)) + 2 * (p2 * p3 * (q2 * q3))) by ring.
    rewrite E00, E11, E22, E33, E01, E02, E03, E12, E13, E23.
    replace 1 with ((q0 * q0 + q1 * q1 + q2 * q2 + q3 * q3) * (q0 * q0 + q1 * q1 + q2 * q2 + q3 * q3))
      by (rewrite N; ring). ring. }
  assert (C : s = 1 \/ s = -1).
  { destruct (Rle_dec 0 s); [left|right]; nra. }
  assert (Z : forall a b c d : R, a * a + b * b + c * c + d * d = 0 -> a = 0 /\ b = 0 /\ c = 0 /\ d = 0).
  { intros a b c d E. repeat split; nra. }
  unfold s in C. destruct C as [C|C]; [left|right].
  - destruct (Z (p0 - q0) (p1 - q1) (p2 - q2) (p3 - q3)) as (? & ? & ? & ?); [nra| ]. lra.
  - destruct (Z (p0 + q0) (p1 + q1) (p2 + q2) (p3 + q3)) as (? & ? & ? & ?); [nra| ]. lra.
Qed.

Lemma to_rotation_determines (p q : Quaternion R) : unit_quat p -> unit_quat q ->
  q_to_rotation p = q_to_rotation q -> qval p = qval q \/ qval p = qval (q_neg q).
Proof.
  intros Hp Hq E. destruct p as [p0 (p1 & p2 & p3 & []) np], q as [q0 (q1 & q2 & q3 & []) nq].
  revert Hp Hq E. rlazy. intros Hp Hq E. injection E as E1 E2 E3 E4 E5 E6 E7 E8 E9.
  destruct (products_determine p0 p1 p2 p3 q0 q1 q2 q3) as [(-> & -> & -> & ->)|(-> & -> & -> & ->)];
    try lra; auto.
Qed.

Lemma c28_from_to_rotation : forall q : Quaternion R, unit_quat q ->
  let p := q_from_rotation (q_to_rotation q) in qval p = qval q \/ qval p = qval (q_neg q).
Proof.
  intros q H. cbv zeta. pose proof (c27_to_rotation_SO3 R_ring q H) as S.
  destruct (c28_from_rotation _ S) as [U E]. now apply to_rotation_determines.
Qed.

(** every rotation matrix comes from a unit quaternion *)
Lemma c28_to_rotation_surjective : forall r : M33 R, SO3 r ->
  exists q, unit_quat q /\ q_to_rotation q = r.
Proof. intros r H. exists (q_from_rotation r). now apply c28_from_rotation. Qed.

(** ** C30: Euler angles *)

(** Rodrigues' formula: rotation by [a] about the unit vector [u] *)
Definition rodrigues (u : V3 R) (a : R) : M33 R :=
  let x := vfun u 0 in let y := vfun u 1 in let z := vfun u 2 in
  let c := cos a in let s := sin a in
  [| [| c + x * x * (1 - c); x * y * (1 - c) - z * s; x * z * (1 - c) + y * s |];
     [| y * x * (1 - c) + z * s; c + y * y * (1 - c); y * z * (1 - c) - x * s |];
     [| z * x * (1 - c) - y * s; z * y * (1 - c) + x * s; c + z * z * (1 - c) |] |].

Definition ex : V3 R := [| 1; 0; 0 |].
Definition ey : V3 R := [| 0; 1; 0 |].
Definition ez : V3 R := [| 0; 0; 1 |].

(** the axes named by a sequence; [None] stands for ZYX *)
Definition seq_axes (s : option EulerSeq) : V3 R * V3 R * V3 R :=
  match s with
  | None => (ez, ey, ex)
  | Some XYX => (ex, ey, ex)
  | Some XYZ => (ex, ey, ez)
  | Some XZX => (ex, ez, ex)
  | Some XZY => (ex, ez, ey)
  | Some YXY => (ey, ex, ey)
  | Some YXZ => (ey, ex, ez)
  | Some YZX => (ey, ez, ex)
  | Some YZY => (ey, ez, ey)
  | Some ZXY => (ez, ex, ey)
  | Some ZXZ => (ez, ex, ez)
  end.

Definition euler_product (s : option EulerSeq) (a b c : R) : M33 R :=
  let '(u, v, w) := seq_axes s in
  m33_mul (m33_mul (rodrigues u a) (rodrigues v b)) (rodrigues w c).

(** the quaternion (cos (a/2), sin (a/2) u) gives Rodrigues' matrix *)
Lemma half_angle_quat_unit u a : v3_dot u u = 1 ->
  unit_quat (q_new (cos (a / 2)) (v3_scale u (sin (a / 2)))).
Proof.
  intros H. destruct u as (x & y & z & []). pose proof (sin2_cos2' (a / 2)) as E. revert H. rlazy.
  set (c := cos (a / 2)) in *. set (s := sin (a / 2)) in *. clearbody c s. intros H.
  replace (c * c + x * s * (x * s) + y * s * (y * s) + z * s * (z * s))
    with (c * c + s * s * (x * x + y * y + z * z)) by ring. rewrite H. lra.
Qed.

Lemma half_angle_quat_rotation u a : v3_dot u u = 1 ->
  q_to_rotation (q_new (cos (a / 2)) (v3_scale u (sin (a / 2)))) = rodrigues u a.
Proof.
  intros H. destruct u as (x & y & z & []). pose proof (sin2_cos2' (a / 2)) as E.
  destruct (half_angle a) as [C S]. unfold rodrigues. cbv zeta.
  assert (C1 : 1 - cos a = 2 * (sin (a / 2) * sin (a / 2))) by lra.
  rewrite C1, C, S. revert H. rlazy.
  set (c := cos (a / 2)) in *. set (s := sin (a / 2)) in *. clearbody c s. intros H.
  assert (Hx : x * x = 1 - y * y - z * z) by lra.
  assert (Hy : y * y = 1 - x * x - z * z) by lra.
  assert (Hz : z * z = 1 - x * x - y * y) by lra.
  rpairs; try ring.
  - transitivity (c * c + s * s * (x * x - y * y - z * z)); [ring| ]. rewrite Hy. ring.
  - transitivity (c * c + s * s * (y * y - x * x - z * z)); [ring| ]. rewrite Hx. ring.
  - transitivity (c * c + s * s * (z * z - x * x - y * y)); [ring| ]. rewrite Hx. ring.
Qed.

Lemma rodrigues_SO3 u a : v3_dot u u = 1 -> SO3 (rodrigues u a).
Proof.
  intros H. rewrite <- half_angle_quat_rotation by exact H.
  apply (c27_to_rotation_SO3 R_ring). now apply half_angle_quat_unit.
Qed.

Lemma c30_elementary_rotations : forall a,
  rotx a = rodrigues ex a /\ roty a = rodrigues ey a /\ rotz a = rodrigues ez a.
Proof. intros; repeat split; rr. Qed.

Lemma c30_euler_sequences_partial : forall s a b c, s <> Some YZX ->
  euler_to_rotation a b c s = euler_product s a b c.
Proof.
  intros s a b c N. destruct (c30_elementary_rotations a) as (Xa & Ya & Za),
    (c30_elementary_rotations b) as (Xb & Yb & Zb), (c30_elementary_rotations c) as (Xc & Yc & Zc).
  destruct s as [[]| ]; unfold euler_to_rotation, euler_product; cbn [seq_axes];
    rewrite ?Xa, ?Ya, ?Za, ?Xb, ?Yb, ?Zb, ?Xc, ?Yc, ?Zc; try reflexivity; contradiction.
Qed.

Lemma c30_YZX_computes_XYZ : forall a b c,
  euler_to_rotation a b c (Some YZX) = euler_to_rotation a b c (Some XYZ).
Proof. reflexivity. Qed.

Lemma c30_euler_sequences_refuted : exists a b c,
  euler_to_rotation a b c (Some YZX) <> euler_product (Some YZX) a b c.
Proof.
  exists (PI / 2), 0, 0. unfold euler_product, seq_axes, euler_to_rotation.
  intros E. apply (f_equal (fun m => mfun m 0 0)) in E. revert E. rlazy.
  rewrite sin_0, cos_0, sin_PI2, cos_PI2. lra.
Qed.

Lemma c30_euler_SO3 : forall s a b c, SO3 (euler_to_rotation a b c s).
Proof.
  intros s a b c.
  assert (X : forall t, SO3 (rotx t)) by (intros t; destruct (c30_elementary_rotations t) as (-> & _);
    apply rodrigues_SO3; rlazy; ring).
  assert (Y : forall t, SO3 (roty t)) by (intros t; destruct (c30_elementary_rotations t) as (_ & -> & _);
    apply rodrigues_SO3; rlazy; ring).
  assert (Z : forall t, SO3 (rotz t)) by (intros t; destruct (c30_elementary_rotations t) as (_ & _ & ->);
    apply rodrigues_SO3; rlazy; ring).
  destruct s as [[]| ]; unfold euler_to_rotation;
    repeat match goal with |- SO3 (m33_mul _ _) => apply (SO3_mul R_ring) end; auto.
Qed.

(** elementary unit quaternions *)
Lemma quat_rotx a : q_to_rotation (q_new_from (cos (a / 2)) (sin (a / 2)) 0 0) = rotx a.
Proof.
  destruct (half_angle a) as [C S]. pose proof (sin2_cos2' (a / 2)). rlazy. rewrite C, S. rpairs; lra.
Qed.
Lemma quat_roty a : q_to_rotation (q_new_from (cos (a / 2)) 0 (sin (a / 2)) 0) = roty a.
Proof.
  destruct (half_angle a) as [C S]. pose proof (sin2_cos2' (a / 2)). rlazy. rewrite C, S. rpairs; lra.
Qed.
Lemma quat_rotz a : q_to_rotation (q_new_from (cos (a / 2)) 0 0 (sin (a / 2))) = rotz a.
Proof.
  destruct (half_angle a) as [C S]. pose proof (sin2_cos2' (a / 2)). rlazy. rewrite C, S. rpairs; lra.
Qed.

Lemma c30_from_euler_angles : forall y p r,
  unit_quat (q_from_euler_angles y p r) /\ normalized (q_from_euler_angles y p r) = true
  /\ q_to_rotation (q_from_euler_angles y p r) = euler_to_rotation y p r None
  /\ q_to_rotation (q_from_euler_angles y p r) = euler_product None y p r.
Proof.
  intros y p r.
  assert (E : qval (q_from_euler_angles y p r)
    = qval (q_mul (q_mul (q_new_from (cos (y / 2)) 0 0 (sin (y / 2)))
                         (q_new_from (cos (p / 2)) 0 (sin (p / 2)) 0))
                  (q_new_from (cos (r / 2)) (sin (r / 2)) 0 0))).
  { rlazy. replace (1 + 1) with 2 by ring. rpairs; ring. }
  assert (QR : forall u v : Quaternion R, qval u = qval v -> q_to_rotation u = q_to_rotation v).
  { intros [? (? & ? & ? & []) ?] [? (? & ? & ? & []) ?] F. revert F. rlazy.
    intros F. injection F as <- <- <- <-. reflexivity. }
  assert (QN : forall u v : Quaternion R, qval u = qval v -> qnormsq u = qnormsq v).
  { intros u v F. unfold qnormsq. now rewrite F. }
  assert (RR : q_to_rotation (q_from_euler_angles y p r) = euler_to_rotation y p r None).
  { rewrite (QR _ _ E), !(c27_to_rotation_mul R_ring), quat_rotx, quat_roty, quat_rotz. reflexivity. }
  split; [ |split; [reflexivity|split; [exact RR| ]]].
  - unfold unit_quat. rewrite (QN _ _ E).
    assert (M : forall u v : Quaternion R, qnormsq (q_mul u v) = qnormsq u * qnormsq v) by rr.
    rewrite !M. pose proof (sin2_cos2' (y / 2)). pose proof (sin2_cos2' (p / 2)).
    pose proof (sin2_cos2' (r / 2)).
    replace (qnormsq (q_new_from (cos (y / 2)) 0 0 (sin (y / 2)))) with 1 by (rlazy; lra).
    replace (qnormsq (q_new_from (cos (p / 2)) 0 (sin (p / 2)) 0)) with 1 by (rlazy; lra).
    replace (qnormsq (q_new_from (cos (r / 2)) (sin (r / 2)) 0 0)) with 1 by (rlazy; lra).
    cbn [one R_Num]. ring.
  - rewrite RR. now apply c30_euler_sequences_partial.
Qed.

(** ** C42, the remaining parts *)

Lemma c42_inverse_agrees : forall A : M44 R, SE3 A ->
  d_inverse D4 A = Ok (Some (homogeneous_inverse A)).
Proof.
  intros A H. apply (c07_inverse_unique OK D4).
  - exact (proj1 (c42_inverse R_ring A H)).
  - assert (D : m44_det A = 1).
    { rewrite (SE3_form A H). destruct H as ((_ & _ & D) & _).
      rewrite <- (m33_det_ldet R_ring) in D. cbn [one R_Num] in D. rewrite <- D.
      generalize (rot_of A) (trans_of A). clear. rr. }
    rewrite (m44_det_ldet R_ring) in D. cbn [dimn]. rewrite D, Rabs_R1.
    pose proof (eps_small K OK). lra.
Qed.

(** the inverse motion: the unique point that [A] sends to [p] *)
Lemma c42_inverse_transform : forall (A : M44 R) p, SE3 A ->
  point (homogeneous_inverse_transform A p) = m44_mul_v (homogeneous_inverse A) (point p)
  /\ m44_mul_v A (point (homogeneous_inverse_transform A p)) = point p.
Proof.
  intros A p H.
  assert (E : point (homogeneous_inverse_transform A p) = m44_mul_v (homogeneous_inverse A) (point p)).
  { unfold homogeneous_inverse_transform.
    assert (G : snd (get_parts A) = trans_of A).
    { unfold get_parts. destruct (rotation_to_euler _) as [[? ?] ?]. reflexivity. }
    destruct (get_parts A) as [q t]. cbn [snd] in G. subst t.
    assert (HI : homogeneous_inverse A = homogeneous_from_rotation (m33_transpose (rot_of A))
                   (m33_mul_v (m33_neg (m33_transpose (rot_of A))) (trans_of A))).
    { rewrite (SE3_form A H) at 1. apply hom_inverse. }
    rewrite HI.
    generalize (rot_of A) (trans_of A). clear. rr. }
  split; [exact E| ]. rewrite E.
  change (d_mul_v D4 A (d_mul_v D4 (homogeneous_inverse A) (point p)) = point p).
  rewrite <- (c02_mul_v_mul R_ring D4). change (d_mul D4 A (homogeneous_inverse A))
    with (m44_mul A (homogeneous_inverse A)).
  rewrite (proj1 (c42_inverse R_ring A H)). exact (c02_mul_v_identity R_ring D4 (point p)).
Qed.

Lemma c42_from_quaternion : forall (q : Quaternion R) p, unit_quat q ->
  SE3 (homogeneous_from_quaternion q p)
  /\ forall x, m44_mul_v (homogeneous_from_quaternion q p) (point x)
                = point (v3_add (q_mul_v q x) p).
Proof.
  intros q p H. split.
  - apply c42_homogeneous_SE3, (c27_to_rotation_SO3 R_ring), H.
  - intros x. rewrite <- (c27_to_rotation_action R_ring) by exact H.
    unfold homogeneous_from_quaternion. generalize (q_to_rotation q). clear. rr.
Qed.

(** ** C48: eigenvalues of 2x2 matrices *)

Definition charpoly (A : M22 R) (x : R) : R :=
  (mfun A 0 0 - x) * (mfun A 1 1 - x) - mfun A 0 1 * mfun A 1 0.

Lemma c48_eigenvalues : forall A : M22 R,
  match m22_real_eigenvals A with
  | Some l => forall x, charpoly A x = (x - vfun l 0) * (x - vfun l 1)
  | None => forall x, charpoly A x <> 0
  end.
Proof.
  intros ((a & b & []) & (c & d & []) & []). unfold m22_real_eigenvals.
  cbn -[Rplus Rmult Rminus Ropp Rdiv Rltb IZR sqrt charpoly].
  destruct (Rltb_spec ((a + d) * (a + d) - 4 * (a * d - c * b)) 0) as [L|L].
  - intros x. rlazy. intros E. pose proof (Rle_0_sqr (2 * x - (a + d))) as Q. unfold Rsqr in Q. nra.
  - intros x. set (D := (a + d) * (a + d) - 4 * (a * d - c * b)) in *.
    assert (S : sqrt D * sqrt D = D) by (apply sqrt_sqrt; lra).
    rlazy. fold D.
    replace ((x - (a + d + sqrt D) / 2) * (x - (a + d - sqrt D) / 2))
      with (x * x - (a + d) * x + ((a + d) * (a + d) - sqrt D * sqrt D) / 4) by field.
    rewrite S. unfold D. field.
Qed.

Lemma c48_eigenvalues_vieta : forall (A : M22 R) l, m22_real_eigenvals A = Some l ->
  vfun l 0 + vfun l 1 = m22_trace A /\ vfun l 0 * vfun l 1 = m22_det A /\ vfun l 1 <= vfun l 0.
Proof.
  intros ((a & b & []) & (c & d & []) & []) l. unfold m22_real_eigenvals.
  cbn -[Rplus Rmult Rminus Ropp Rdiv Rltb IZR sqrt charpoly].
  destruct (Rltb_spec ((a + d) * (a + d) - 4 * (a * d - c * b)) 0) as [L|L]; [discriminate| ].
  intros E. injection E as <-. rlazy. set (D := (a + d) * (a + d) - 4 * (a * d - c * b)) in *.
  assert (S : sqrt D * sqrt D = D) by (apply sqrt_sqrt; lra).
  pose proof (sqrt_pos D). repeat split; try lra.
  replace ((a + d + sqrt D) / 2 * ((a + d - sqrt D) / 2))
    with (((a + d) * (a + d) - sqrt D * sqrt D) / 4) by field.
  rewrite S. unfold D. field.
Qed.

(** ** C51: distance_to_manifold *)

Lemma c51_distance_nonneg : forall m : M33 R, 0 <= distance_to_manifold m.
Proof.
  intros m. unfold distance_to_manifold. cbn [ltb R_POrd zero R_Num infinity R_Float].
  destruct (Rltb _ _).
  - apply (c09_norm2_nonneg D3).
  - pose proof (inf_large K OK). pose proof (max_large K OK). lra.
Qed.

Lemma c51_distance_zero_iff : forall m : M33 R, distance_to_manifold m = 0 <-> SO3 m.
Proof.
  intros m. unfold distance_to_manifold. cbn [ltb R_POrd zero R_Num infinity R_Float].
  pose proof (inf_large K OK) as I1. pose proof (max_large K OK) as I2.
  destruct (Rltb_spec 0 (m33_det m)) as [P|P].
  - rewrite (c09_norm2_zero_iff D3 _ : m33_norm2 _ = 0 <-> _).
    split.
    + intros E.
      assert (O : m33_mul m (m33_transpose m) = m33_identity).
      { apply (f_equal (fun z => m33_add z m33_identity)) in E.
        revert E. generalize (m33_mul m (m33_transpose m)). clear. intros A E.
        revert E. rdes. rlazy. intros E. injection E. intros. rpairs; lra. }
      assert (D : m33_det m = 1).
      { assert (D2 : m33_det m * m33_det m = 1).
        { pose proof (c05_det_mul R_ring D3 m (m33_transpose m)) as M.
          pose proof (c05_det_transpose R_ring D3 m) as Tr.
          cbn [d_det d_mul d_transpose dimn mul R_Num] in M, Tr. rewrite Tr, O in M.
          rewrite <- M. exact (c05_det_identity R_ring D3). }
        nra. }
      split; [ |split; [exact O|rewrite <- (m33_det_ldet R_ring); exact D]].
      assert (V : d_inverse D3 m = Ok (Some (m33_transpose m))).
      { apply (c07_inverse_unique OK D3); [exact O| ]. rewrite <- (d_det_ldet R_ring).
        change (d_det D3 m) with (m33_det m). rewrite D, Rabs_R1. pose proof (eps_small K OK). lra. }
      exact (proj2 (c06_inverse_two_sided OK D3 m _ V)).
    + intros (_ & O & _). rewrite O. rr.
  - split; [intros; lra| ]. intros (_ & _ & D). rewrite <- (m33_det_ldet R_ring) in D.
    cbn [one R_Num] in D. lra.
Qed.

Lemma c51_distance_infinite : forall m : M33 R, m33_det m <= 0 ->
  distance_to_manifold m = infinity.
Proof.
  intros m H. unfold distance_to_manifold. cbn [ltb R_POrd zero R_Num].
  destruct (Rltb_spec 0 (m33_det m)); [lra|reflexivity].
Qed.

Lemma c51_distance_value : forall m : M33 R, 0 < m33_det m ->
  distance_to_manifold m = m33_norm2 (m33_sub (m33_mul m (m33_transpose m)) m33_identity).
Proof.
  intros m H. unfold distance_to_manifold. cbn [ltb R_POrd zero R_Num].
  destruct (Rltb_spec 0 (m33_det m)); [reflexivity|lra].
Qed.

(** ** C52: planar transformations *)

Lemma c52_rot2_SO2 : forall a,
  m22_mul (m22_transpose (rot2 a)) (rot2 a) = m22_identity
  /\ m22_mul (rot2 a) (m22_transpose (rot2 a)) = m22_identity /\ m22_det (rot2 a) = 1.
Proof.
  intros a. pose proof (sin2_cos2' a). rlazy. repeat split; rpairs; lra.
Qed.

Lemma c52_rot2_add : forall a b, m22_mul (rot2 a) (rot2 b) = rot2 (a + b).
Proof. intros. rlazy. rewrite sin_plus, cos_plus. rpairs; ring. Qed.

Lemma c52_rot2_0 : rot2 0 = m22_identity.
Proof. rlazy. rewrite sin_0, cos_0. rpairs; ring. Qed.

Lemma c52_ksi_split : forall a x y, ksi a x y = m33_mul (translation_2d x y) (ksi a 0 0).
Proof. rr. Qed.

Lemma c52_ksi_compose : forall a x y b u v,
  m33_mul (ksi a x y) (ksi b u v)
  = ksi (a + b) (x + vfun (m22_mul_v (rot2 a) [| u; v |]) 0) (y + vfun (m22_mul_v (rot2 a) [| u; v |]) 1).
Proof. intros. rlazy. rewrite sin_plus, cos_plus. rpairs; ring. Qed.

Lemma c52_translation_2d : forall x y u v,
  m33_mul (translation_2d x y) (translation_2d u v) = translation_2d (x + u) (y + v)
  /\ m33_mul_v (translation_2d x y) [| u; v; 1 |] = [| u + x; v + y; 1 |].
Proof. intros; split; rr. Qed.

Lemma c52_translation_3d : forall x y z u v w,
  m44_mul (translation_3d x y z) (translation_3d u v w) = translation_3d (x + u) (y + v) (z + w)
  /\ m44_mul_v (translation_3d x y z) (point [| u; v; w |]) = point [| u + x; v + y; w + z |].
Proof. intros; split; rr. Qed.

Lemma c52_rot_add : forall a b,
  m33_mul (rotx a) (rotx b) = rotx (a + b) /\ m33_mul (roty a) (roty b) = roty (a + b)
  /\ m33_mul (rotz a) (rotz b) = rotz (a + b).
Proof. intros. rlazy. rewrite sin_plus, cos_plus. repeat split; rpairs; ring. Qed.

End Near.

(** ** Concrete cases *)
Section Examples.
Let K := f64_consts.
Definition halfturn_x : M33 R := [| [| 1; 0; 0 |]; [| 0; -1; 0 |]; [| 0; 0; -1 |] |].
Example C28_halfturn : SO3 halfturn_x /\ qval (q_from_rotation (fT := R_Float K) halfturn_x) = (0, 1, 0, 0).
Proof.
  split.
  - unfold SO3. rewrite <- (m33_det_ldet R_ring). rlazy. repeat split; rpairs; lra.
  - unfold q_from_rotation. cbn -[Rplus Rmult Rminus Ropp Rdiv Rltb IZR sqrt q_div_s q_scale q_new_from].
    destruct (Rltb_spec (-1) 0); [ |lra]. destruct (Rltb_spec (-1) 1); [ |lra].
    rlazy. replace (1 + 1 - -1 - -1) with (2 * 2) by ring. rewrite sqrt_square by lra.
    rpairs; field.
Qed.
Example C30_example : q_to_rotation (q_from_euler_angles (fT := R_Float K) PI 0 0)
  = [| [| -1; 0; 0 |]; [| 0; -1; 0 |]; [| 0; 0; 1 |] |].
Proof.
  destruct (c30_from_euler_angles (K := K) PI 0 0) as (_ & _ & -> & _).
  rlazy. rewrite sin_0, cos_0, sin_PI, cos_PI. rpairs; ring.
Qed.
Example C42_example : SE3 (homogeneous_from_rotation halfturn_x [| 1; 2; 3 |]).
Proof. apply c42_homogeneous_SE3, C28_halfturn. Qed.
Example C48_example : m22_real_eigenvals (fT := R_Float K) [| [| 2; 1 |]; [| 1; 2 |] |] = Some [| 3; 1 |].
Proof.
  unfold m22_real_eigenvals. cbn -[Rplus Rmult Rminus Ropp Rdiv Rltb IZR sqrt].
  destruct (Rltb_spec ((2 + 2) * (2 + 2) - 4 * (2 * 2 - 1 * 1)) 0); [lra| ].
  replace ((2 + 2) * (2 + 2) - 4 * (2 * 2 - 1 * 1)) with (2 * 2) by ring.
  rewrite sqrt_square by lra. f_equal. rlazy. rpairs; field.
Qed.
Example C51_example : 0 < distance_to_manifold (fT := R_Float K)
  ([| [| 2; 0; 0 |]; [| 0; 1; 0 |]; [| 0; 0; 1 |] |] : M33 R).
Proof.
  destruct (Rle_lt_or_eq_dec _ _ (c51_distance_nonneg (K := K) f64_consts_ok
    ([| [| 2; 0; 0 |]; [| 0; 1; 0 |]; [| 0; 0; 1 |] |] : M33 R))) as [H|H]; [exact H| ].
  symmetry in H. apply (c51_distance_zero_iff (K := K) f64_consts_ok) in H.
  destruct H as (H & _). apply (f_equal (fun m => mfun m 0 0)) in H. revert H. rlazy. lra.
Qed.
End Examples.
