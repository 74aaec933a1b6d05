(** * ProofsSlerp: C34, slerp; C53, quaternion kinematics *)

From Coq Require Import List Arith Lia Bool Reals Lra Psatz.
From Verif Require Import Base Scalar Vec Mat2 Mat3 Mat4 Mat6 Slices MatLoops MatOps Quat Transf
  DualQuat RingDet Spec Entries DetEntries InstR RFacts TrigFacts ProofsRing ProofsInverse ProofsNorm
  ProofsQuat ProofsRigid ProofsRot ProofsQuatR ProofsQuatExp.
Import ListNotations.
Local Open Scope R_scope.

(** Specification: inner product of quaternions, linear combination *)
Definition qinner (a b : Quaternion R) : R :=
  let '(w, x, y, z) := qval a in let '(w', x', y', z') := qval b in
  w * w' + x * x' + y * y' + z * z'.
Definition qcomb (s : R) (a : Quaternion R) (t : R) (b : Quaternion R) : R * R * R * R :=
  let '(w, x, y, z) := qval a in let '(w', x', y', z') := qval b in
  (s * w + t * w', s * x + t * x', s * y + t * y', s * z + t * z').

Section R.
Context {K : RConsts} (OK : RConstsOk K).
Notation Q := (Quaternion R).

Lemma q_dot_inner (a b : Q) : q_dot a b = qinner a b.
Proof. rr. Qed.

(** The regular branch: spherical interpolation along the shorter arc. [sg] is
    the sign that brings [b] into the hemisphere of [a]. *)
Lemma slerp_regular (a b : Q) t : Rabs (qinner a b) < 1 ->
  r_1em3 <= sqrt (1 - qinner a b * qinner a b) ->
  let sg := if Rlt_dec (qinner a b) 0 then -1 else 1 in
  let th := acos (Rabs (qinner a b)) in
  sin th = sqrt (1 - qinner a b * qinner a b) /\ cos th = Rabs (qinner a b) /\
  qval (q_slerp a b t) = qcomb (sin ((1 - t) * th) / sin th) a (sg * (sin (t * th) / sin th)) b.
Proof.
  intros L H. pose proof (em3_pos K OK) as He.
  unfold q_slerp. rewrite q_dot_inner. set (c := qinner a b) in *.
  assert (Ab : Rabs c * Rabs c = c * c) by (rewrite <- Rabs_mult; apply Rabs_pos_eq; nra).
  pose proof (Rabs_pos c) as Pc.
  assert (TH : sin (acos (Rabs c)) = sqrt (1 - c * c)).
  { rewrite sin_acos' by lra. rewrite Ab. reflexivity. }
  assert (CT : cos (acos (Rabs c)) = Rabs c) by (apply cos_acos; lra).
  cbv zeta. split; [exact TH|split; [exact CT| ]]. rewrite TH.
  cbn [leb ltb R_POrd abs neg R_Signed zero one R_Num facos fsqrt fsin lit_1em3 R_Float sub mul add div].
  replace (Rleb 1 (Rabs c)) with false by (symmetry; apply Rleb_false; lra).
  destruct (Rltb_spec c 0) as [N|N]; destruct (Rlt_dec c 0) as [N'|N']; try lra; cbv beta iota; cbn [negb].
  - replace (- c * - c) with (c * c) by ring. rewrite (Rabs_pos_eq (sqrt _)) by apply sqrt_pos.
    replace (Rltb (sqrt (1 - c * c)) r_1em3) with false by (symmetry; apply Rltb_false; lra).
    replace (Rabs c) with (- c) by (unfold Rabs; destruct Rcase_abs; lra).
    generalize (sin ((1 - t) * acos (- c)) / sqrt (1 - c * c)) (sin (t * acos (- c)) / sqrt (1 - c * c)).
    clear. rr.
  - rewrite (Rabs_pos_eq (sqrt _)) by apply sqrt_pos.
    replace (Rltb (sqrt (1 - c * c)) r_1em3) with false by (symmetry; apply Rltb_false; lra).
    replace (Rabs c) with c by (unfold Rabs; destruct Rcase_abs; lra).
    generalize (sin ((1 - t) * acos c) / sqrt (1 - c * c)) (sin (t * acos c) / sqrt (1 - c * c)).
    clear. rr.
Qed.

(** unit quaternions with inner product +-1 are equal up to sign *)
Lemma unit_inner (a b : Q) : unit_quat a -> unit_quat b ->
  -1 <= qinner a b <= 1 /\ (qinner a b = 1 -> qval b = qval a)
  /\ (qinner a b = -1 -> qval b = qval (q_neg a)).
Proof.
  assert (S : forall u s p m : R, u * u + s * s + p * p + m * m = 0 -> u = 0 /\ s = 0 /\ p = 0 /\ m = 0).
  { clear. intros. repeat split; nra. }
  unfold unit_quat. destruct a as [w [x [y [z []]]] f], b as [w' [x' [y' [z' []]]] f'].
  lazy -[Rplus Rmult Ropp Rminus IZR Rle]. intros A B.
  pose proof (S (w' - w) (x' - x) (y' - y) (z' - z)) as S1.
  pose proof (S (w' + w) (x' + x) (y' + y) (z' + z)) as S2.
  assert (P : 0 <= (w - w') * (w - w') + (x - x') * (x - x') + (y - y') * (y - y') + (z - z') * (z - z'))
    by (repeat apply Rplus_le_le_0_compat; apply Rle_0_sqr).
  assert (P' : 0 <= (w + w') * (w + w') + (x + x') * (x + x') + (y + y') * (y + y') + (z + z') * (z + z'))
    by (repeat apply Rplus_le_le_0_compat; apply Rle_0_sqr).
  split; [lra|split; intros E].
  - destruct S1 as (E0 & E1 & E2 & E3); [lra|rpairs; lra].
  - destruct S2 as (E0 & E1 & E2 & E3); [lra|rpairs; lra].
Qed.

Lemma slerp_equal (a b : Q) t : 1 <= Rabs (qinner a b) -> q_slerp a b t = a.
Proof.
  intros H. unfold q_slerp. rewrite q_dot_inner.
  cbn [leb R_POrd abs R_Signed one R_Num].
  replace (Rleb 1 (Rabs (qinner a b))) with true by (symmetry; now apply Rleb_true). reflexivity.
Qed.

(** the pairs slerp handles correctly: equal rotations, or an angle whose sine
    is at least the literal 1e-3 *)
Definition slerp_ok (a b : Q) : Prop :=
  Rabs (qinner a b) = 1 \/ r_1em3 <= sqrt (1 - qinner a b * qinner a b).

Lemma slerp_ok_cases (a b : Q) : unit_quat a -> unit_quat b -> slerp_ok a b ->
  (1 <= Rabs (qinner a b)) \/ (Rabs (qinner a b) < 1 /\ r_1em3 <= sqrt (1 - qinner a b * qinner a b)).
Proof.
  intros A B H. destruct (Rle_lt_dec 1 (Rabs (qinner a b))) as [L|L]; [now left|right].
  split; [exact L|destruct H as [H|H]; [lra|exact H]].
Qed.

Lemma c34_unit_partial : forall (a b : Q) t, unit_quat a -> unit_quat b -> slerp_ok a b ->
  unit_quat (q_slerp a b t).
Proof.
  intros a b t A B H. destruct (slerp_ok_cases a b A B H) as [L|[L L']].
  - rewrite slerp_equal by exact L. exact A.
  - destruct (slerp_regular a b t L L') as (S & C & E). set (th := acos (Rabs (qinner a b))) in *.
    pose proof (em3_pos K OK) as He. assert (S0 : 0 < sin th) by lra.
    pose proof (sin2_cos2' th) as SC. pose proof (sin2_cos2' (t * th)) as ST.
    assert (SM : sin ((1 - t) * th) = sin th * cos (t * th) - cos th * sin (t * th)).
    { rewrite <- sin_minus. f_equal. ring. }
    set (sg := if Rlt_dec (qinner a b) 0 then -1 else 1) in *.
    assert (G : sg * qinner a b = cos th /\ sg * sg = 1).
    { rewrite C. unfold sg, Rabs. destruct Rlt_dec, Rcase_abs; lra. }
    destruct G as [G G1]. clearbody sg. clear S C. clearbody th.
    set (p := sin ((1 - t) * th) / sin th) in *. set (q := sin (t * th) / sin th) in *.
    assert (N : qnormsq (q_slerp a b t) = p * p * qnormsq a + 2 * p * q * (sg * qinner a b) + sg * sg * (q * q) * qnormsq b).
    { generalize (q_slerp a b t), E. clear. intros r. unfold qinner, qcomb. rdes. rlazy. intros E. injection E as -> -> -> ->. ring. }
    unfold unit_quat in *. rewrite N, A, B, G, G1. cbn [one R_Num]. unfold p, q. rewrite SM.
    revert SC ST S0. generalize (sin th) (cos th) (sin (t * th)) (cos (t * th)). clear. intros s c s' c' SC ST S0.
    assert (X : (s * c' - c * s') * (s * c' - c * s') + 2 * (s * c' - c * s') * s' * c + s' * s' = s * s).
    { transitivity (s * s * (c' * c') + (1 - c * c) * (s' * s')); [ring| ].
      replace (1 - c * c) with (s * s) by lra. transitivity (s * s * (s' * s' + c' * c')); [ring|rewrite ST; ring]. }
    transitivity (((s * c' - c * s') * (s * c' - c * s') + 2 * (s * c' - c * s') * s' * c + s' * s') / (s * s)); [field; lra| ].
    rewrite X. field. lra.
Qed.

(** the end points, as rotations *)
Lemma c34_endpoints_partial : forall (a b : Q), unit_quat a -> unit_quat b -> slerp_ok a b ->
  qval (q_slerp a b 0) = qval a
  /\ (qval (q_slerp a b 1) = qval b \/ qval (q_slerp a b 1) = qval (q_neg b))
  /\ q_to_rotation (q_slerp a b 1) = q_to_rotation b.
Proof.
  intros a b A B H.
  assert (X : qval (q_slerp a b 0) = qval a
     /\ (qval (q_slerp a b 1) = qval b \/ qval (q_slerp a b 1) = qval (q_neg b))).
  { destruct (slerp_ok_cases a b A B H) as [L|[L L']].
    - rewrite !slerp_equal by exact L. split; [reflexivity| ].
      destruct (unit_inner a b A B) as (R1 & E1 & E2).
      assert (D : qinner a b = 1 \/ qinner a b = -1).
      { unfold Rabs in L. destruct Rcase_abs; lra. }
      destruct D as [D|D]; [left; symmetry; auto|right].
      specialize (E2 D). revert E2. clear. rdes. rlazy. intros E. injection E as -> -> -> ->. rpairs; ring.
    - pose proof (em3_pos K OK) as He.
      destruct (slerp_regular a b 0 L L') as (S & C & E). destruct (slerp_regular a b 1 L L') as (_ & _ & E').
      set (th := acos (Rabs (qinner a b))) in *. rewrite <- S in L'.
      rewrite E, E'.
      replace ((1 - 0) * th) with th by ring. replace ((1 - 1) * th) with 0 by ring.
      rewrite Rmult_0_l, Rmult_1_l, sin_0. clearbody th. split.
      + replace (sin th / sin th) with 1 by (field; lra). unfold Rdiv. rewrite Rmult_0_l, Rmult_0_r.
        unfold qcomb. clear. rr.
      + replace (sin th / sin th) with 1 by (field; lra). unfold Rdiv. rewrite Rmult_0_l, Rmult_1_r.
        destruct Rlt_dec; [right|left]; unfold qcomb; clear; rr. }
  destruct X as [X0 X1]. split; [exact X0|split; [exact X1| ]].
  generalize (q_slerp a b 1), X1. clear. intros r. rdes. rlazy. intros [E|E]; injection E as -> -> -> ->; rpairs; ring.
Qed.

(** the angle to [a] grows linearly, along the shorter arc *)
Lemma c34_constant_speed_partial : forall (a b : Q) t, unit_quat a -> unit_quat b ->
  Rabs (qinner a b) < 1 -> r_1em3 <= sqrt (1 - qinner a b * qinner a b) ->
  qinner a (q_slerp a b t) = cos (t * acos (Rabs (qinner a b)))
  /\ 0 <= acos (Rabs (qinner a b)) <= PI / 2.
Proof.
  intros a b t A B L L'. destruct (slerp_regular a b t L L') as (S & C & E).
  pose proof (em3_pos K OK) as He. pose proof (Rabs_pos (qinner a b)) as Pa.
  set (th := acos (Rabs (qinner a b))) in *. rewrite <- S in L'. split.
  - assert (SM : sin ((1 - t) * th) = sin th * cos (t * th) - cos th * sin (t * th)).
    { rewrite <- sin_minus. f_equal. ring. }
    set (sg := if Rlt_dec (qinner a b) 0 then -1 else 1) in *.
    assert (G : sg * qinner a b = cos th) by (rewrite C; unfold sg, Rabs; destruct Rlt_dec, Rcase_abs; lra).
    clearbody sg.
    assert (N : qinner a (q_slerp a b t) = sin ((1 - t) * th) / sin th * qnormsq a + sin (t * th) / sin th * (sg * qinner a b)).
    { generalize (q_slerp a b t), E. generalize (sin ((1 - t) * th) / sin th) (sin (t * th) / sin th). clear.
      intros p q r. unfold qinner, qcomb. rdes. rlazy. intros E. injection E as -> -> -> ->. ring. }
    unfold unit_quat in A. rewrite N, A, G, SM. cbn [one R_Num]. field. lra.
  - pose proof (acos_bound (Rabs (qinner a b))) as AB. fold th in AB. split; [lra| ].
    destruct (Rle_lt_dec th (PI / 2)) as [Q|Q]; [exact Q|exfalso].
    assert (cos th < 0) by (apply cos_lt_0; lra). lra.
Qed.

(** For nearly equal rotations the source mixes up two components of [b] ... *)
Lemma c34_swapped_refuted : exists a b : Q, unit_quat a /\ unit_quat b
  /\ qval (q_slerp a b 1) <> qval b /\ qval (q_slerp a b 1) <> qval (q_neg b)
  /\ q_to_rotation (q_slerp a b 1) <> q_to_rotation b.
Proof.
  pose proof (em3_pos K OK) as He. pose proof (em3_small K OK) as Hs. pose proof PI2_1 as HP.
  set (m := r_1em3 / 2). assert (Hm : 0 < m) by (unfold m; lra).
  assert (S0 : 0 < sin m) by (apply sin_gt_0; unfold m in *; lra).
  assert (C0 : 0 < cos m) by (apply cos_gt_0; unfold m in *; lra).
  pose proof (sin_lt_x m Hm) as SL. pose proof (sin2_cos2' m) as SC.
  assert (C1 : cos m < 1) by nra.
  set (a := q_new_from 1 0 0 0 : Q). set (b := q_new_from (cos m) 0 (sin m) 0 : Q).
  assert (D : q_dot a b = cos m) by (unfold a, b; clear; rlazy; ring).
  assert (X : q_slerp a b 1 = q_new_from (cos m) 0 0 (sin m)).
  { unfold q_slerp. rewrite D.
    cbn [leb ltb R_POrd abs neg R_Signed zero one R_Num facos fsqrt fsin lit_1em3 R_Float sub mul add div].
    rewrite (Rabs_pos_eq (cos m)) by lra.
    replace (Rleb 1 (cos m)) with false by (symmetry; apply Rleb_false; lra).
    replace (Rltb (cos m) 0) with false by (symmetry; apply Rltb_false; lra). cbv beta iota; cbn [negb].
    replace (1 - cos m * cos m) with (sin m * sin m) by lra. rewrite sqrt_square by lra.
    rewrite (Rabs_pos_eq (sin m)) by lra.
    replace (Rltb (sin m) r_1em3) with true by (symmetry; apply Rltb_true; unfold m in *; lra).
    unfold a, b. generalize (cos m) (sin m). clear. intros c s. rlazy. f_equal; [ring|rpairs; ring]. }
  exists a, b. rewrite X.
  assert (Y : q_to_rotation (q_new_from (cos m) 0 0 (sin m)) <> q_to_rotation b).
  { unfold b. intros E. apply (f_equal (fun r => mfun r 0 1)) in E. revert E.
    clear - S0 C0. revert S0 C0. generalize (cos m) (sin m). intros c s S0 C0. rlazy. intros E. nra. }
  unfold b. split; [unfold a; rlazy; ring|split; [revert SC; generalize (sin m) (cos m); clear; rlazy; intros; lra| ]].
  split; [ |split; [ |exact Y]]; intros E; apply (f_equal (fun z => snd (fst z))) in E; revert E;
    revert S0; generalize (sin m) (cos m); clear; rlazy; intros; lra.
Qed.

(** ... and when the inner product is negative it returns the zero quaternion *)
Lemma c34_zero_refuted : exists a b : Q, unit_quat a /\ unit_quat b
  /\ forall t, q_slerp a b t = q_zero.
Proof.
  pose proof (em3_pos K OK) as He. pose proof (em3_small K OK) as Hs. pose proof PI2_1 as HP.
  set (m := r_1em3 / 2). assert (Hm : 0 < m) by (unfold m; lra).
  assert (S0 : 0 < sin m) by (apply sin_gt_0; unfold m in *; lra).
  assert (C0 : 0 < cos m) by (apply cos_gt_0; unfold m in *; lra).
  pose proof (sin_lt_x m Hm) as SL. pose proof (sin2_cos2' m) as SC.
  assert (C1 : cos m < 1) by nra.
  set (a := q_new_from 1 0 0 0 : Q). set (b := q_new_from (- cos m) 0 (sin m) 0 : Q).
  assert (D : q_dot a b = - cos m) by (unfold a, b; clear; rlazy; ring).
  exists a, b. split; [unfold a; rlazy; ring|split; [unfold b; revert SC; generalize (sin m) (cos m); clear; rlazy; intros; lra| ]].
  intros t. unfold q_slerp. rewrite D.
  cbn [leb ltb R_POrd abs neg R_Signed zero one R_Num facos fsqrt fsin lit_1em3 R_Float sub mul add div].
  rewrite (Rabs_Ropp (cos m)), (Rabs_pos_eq (cos m)) by lra.
  replace (Rleb 1 (cos m)) with false by (symmetry; apply Rleb_false; lra).
  replace (Rltb (- cos m) 0) with true by (symmetry; apply Rltb_true; lra). cbv beta iota; cbn [negb].
  replace (1 - - - cos m * - - cos m) with (sin m * sin m) by lra. rewrite sqrt_square by lra.
  rewrite (Rabs_pos_eq (sin m)) by lra.
  replace (Rltb (sin m) r_1em3) with true by (symmetry; apply Rltb_true; unfold m in *; lra).
  reflexivity.
Qed.

(** ** C53: kinematics *)

(** component [k] of a quaternion *)
Definition qcomp (k : nat) (q : Q) : R :=
  let '(w, x, y, z) := qval q in match k with 0%nat => w | 1%nat => x | 2%nat => y | _ => z end.

(** [tr s]: rotation by the angle |w| s about w; the body orientation is
    [tr s * q0] *)
Lemma c53_derivative : forall (w : V3 R) (q0 : Q) (tr : R -> Q), w <> v3_zeros ->
  (forall s, q_rotation (v3_norm2 w * s) w = Ok (tr s)) ->
  forall k t, derivable_pt_lim (fun s => qcomp k (q_mul (tr s) q0)) t
                               (qcomp k (q_derivative (q_mul (tr t) q0) w)).
Proof.
  intros w q0 tr N TR k t.
  assert (N' : v3_norm2 w <> 0) by (intros E; apply N, v3_norm2_zero, E).
  assert (UW : w = v3_scale (unit_of w) (v3_norm2 w)).
  { unfold unit_of. rewrite <- (c18_norm2_dot D3 w : v3_norm2 w = sqrt (v3_dot w w)), v3_scale_scale, Rinv_l, v3_scale_1 by exact N'.
    reflexivity. }
  pose proof (unit_of_unit w N) as U. set (u := unit_of w) in *. set (n := v3_norm2 w) in *.
  assert (TV : forall s, tr s = mkQ (cos (n * s / 2)) (v3_scale u (sin (n * s / 2))) true).
  { intros s. specialize (TR s). unfold q_rotation in TR. rewrite v3_normalize_eq in TR by exact N.
    cbn [bind unwrap sin_cos fsin fcos R_Float one add div R_Num] in TR. injection TR as <-.
    fold u. replace (1 + 1) with 2 by ring. reflexivity. }
  clearbody u n. rewrite TV, UW. clear TR N N' UW w. revert U. 
  assert (DC : derivable_pt_lim (fun s => cos (n * s / 2)) t (- sin (n * t / 2) * (n / 2))).
  { apply (derivable_pt_lim_comp (fun s => n * s / 2) cos); [ |apply derivable_pt_lim_cos].
    replace (n / 2) with (n / 2 * 1) by ring.
    apply (derivable_pt_lim_locally_ext (mult_real_fct (n / 2) id) _ t (t - 1) (t + 1)); [lra|intros; unfold mult_real_fct, id; field| ].
    apply derivable_pt_lim_scal, derivable_pt_lim_id. }
  assert (DS : derivable_pt_lim (fun s => sin (n * s / 2)) t (cos (n * t / 2) * (n / 2))).
  { apply (derivable_pt_lim_comp (fun s => n * s / 2) sin); [ |apply derivable_pt_lim_sin].
    replace (n / 2) with (n / 2 * 1) by ring.
    apply (derivable_pt_lim_locally_ext (mult_real_fct (n / 2) id) _ t (t - 1) (t + 1)); [lra|intros; unfold mult_real_fct, id; field| ].
    apply derivable_pt_lim_scal, derivable_pt_lim_id. }
  (* every component is a linear combination of the cosine and the sine *)
  assert (L : forall al be, derivable_pt_lim (fun s => al * cos (n * s / 2) + be * sin (n * s / 2)) t
            (al * (- sin (n * t / 2) * (n / 2)) + be * (cos (n * t / 2) * (n / 2)))).
  { intros al be. apply (derivable_pt_lim_plus (fun s => al * cos (n * s / 2)) (fun s => be * sin (n * s / 2)));
      [exact (derivable_pt_lim_scal _ al t _ DC)|exact (derivable_pt_lim_scal _ be t _ DS)]. }
  intros U.
  destruct q0 as [q00 [q1 [q2 [q3 []]]] fl], u as [x [y [z []]]].
  assert (E : exists al be, (forall s, qcomp k (q_mul (tr s) (mkQ q00 [| q1; q2; q3 |] fl)) = al * cos (n * s / 2) + be * sin (n * s / 2))
     /\ qcomp k (q_derivative (q_mul (mkQ (cos (n * t / 2)) (v3_scale [| x; y; z |] (sin (n * t / 2))) true) (mkQ q00 [| q1; q2; q3 |] fl)) (v3_scale [| x; y; z |] n))
       = al * (- sin (n * t / 2) * (n / 2)) + be * (cos (n * t / 2) * (n / 2))).
  { assert (V : forall c s, qval (q_mul (mkQ c (v3_scale [| x; y; z |] s) true) (mkQ q00 [| q1; q2; q3 |] fl))
       = (q00 * c + - (x * q1 + y * q2 + z * q3) * s, q1 * c + (x * q00 + y * q3 - z * q2) * s,
          q2 * c + (y * q00 + z * q1 - x * q3) * s, q3 * c + (z * q00 + x * q2 - y * q1) * s)) by (intros; rr).
    destruct k as [ |[ |[ |k]]].
    1: exists q00, (- (x * q1 + y * q2 + z * q3)). 2: exists q1, (x * q00 + y * q3 - z * q2).
    3: exists q2, (y * q00 + z * q1 - x * q3). 4: exists q3, (z * q00 + x * q2 - y * q1).
    all: split; [intros s; rewrite TV; unfold qcomp; rewrite V; reflexivity| ].
    all: revert U; generalize (cos (n * t / 2)) (sin (n * t / 2)); clear; intros c s; rlazy; intros U.
    all: apply (f_equal (Rmult (n * s))) in U; pose proof (f_equal (Rmult q00) U); pose proof (f_equal (Rmult q1) U);
      pose proof (f_equal (Rmult q2) U); pose proof (f_equal (Rmult q3) U); lra. }
  destruct E as (al & be & E1 & E2).
  match goal with |- derivable_pt_lim _ _ ?l => replace l with (al * (- sin (n * t / 2) * (n / 2)) + be * (cos (n * t / 2) * (n / 2)))
    by (symmetry; exact E2) end.
  apply derivable_pt_lim_ext with (1 := fun s => eq_sym (E1 s)). apply L.
Qed.

(** tangent to the unit sphere *)
Lemma c53_tangent : forall (q : Q) (w : V3 R), qinner q (q_derivative q w) = 0.
Proof. unfold qinner. rr. Qed.

End R.

(** ** Concrete cases *)
Section Examples.
#[local] Existing Instance f64_consts.
Example C34_example : let a := q_new_from 1 0 0 0 in let b := q_new_from 0 1 0 0 in
  unit_quat a /\ unit_quat b /\ slerp_ok a b /\ qval (q_slerp a b 1) = qval b.
Proof.
  intros a b. assert (I : qinner a b = 0) by (rlazy; ring).
  assert (O : slerp_ok a b).
  { right. rewrite I. replace (1 - 0 * 0) with 1 by ring. rewrite sqrt_1.
    pose proof (em3_small _ f64_consts_ok). lra. }
  split; [rlazy; ring|split; [rlazy; ring|split; [exact O| ]]].
  assert (A : Rabs (qinner a b) < 1) by (rewrite I, Rabs_R0; lra).
  destruct (slerp_regular f64_consts_ok a b 1 A) as (S & _ & ->).
  { destruct O as [O|O]; [rewrite I, Rabs_R0 in O; lra|exact O]. }
  rewrite I, Rabs_R0 in *. replace (1 - 0 * 0) with 1 in S by ring. rewrite sqrt_1 in S.
  destruct (Rlt_dec 0 0); [lra| ]. rewrite !Rmult_1_l, S. replace ((1 - 1) * acos 0) with 0 by ring. rewrite sin_0.
  unfold qcomb, a, b. clear. rlazy. rpairs; field.
Qed.
(** rotation about z with rate 2 *)
Example C53_example : let w : V3 R := [| 0; 0; 2 |] in
  exists tr, w <> v3_zeros /\ forall s, q_rotation (v3_norm2 w * s) w = Ok (tr s).
Proof.
  intros w. assert (N : w <> v3_zeros) by (intros E; injection E; lra).
  exists (fun s => mkQ (cos (v3_norm2 w * s / (1 + 1))) (v3_scale (unit_of w) (sin (v3_norm2 w * s / (1 + 1)))) true).
  split; [exact N|intros s]. unfold q_rotation. rewrite v3_normalize_eq by exact N. reflexivity.
Qed.
End Examples.
