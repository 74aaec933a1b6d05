(** * ProofsDefined2: no undefined operation in dual quaternions and rigid
      transformations (C73, C74) *)

From Coq Require Import Reals Lra Bool List Arith Lia.
From Verif Require Import Base Scalar Vec Slices Mat2 Mat3 Mat4 Mat5 Mat6 MatLoops MatOps Quat Transf DualQuat
  RingDet Spec Entries InstR RFacts TrigFacts InstE ProofsDefined ProofsNorm ProofsQuat ProofsRigid ProofsRot ProofsQuatR
  ProofsDual ProofsExp.
Import ListNotations.
Local Open Scope R_scope.

Section Defined.
Context {K : RConsts} (OK : RConstsOk K).

(** ** Dual quaternions *)
Lemma e_dq_mul a b : dq_mul (up_dq a) (up_dq b) = up_dq (dq_mul a b).
Proof. reflexivity. Qed.
Lemma e_dq_translation a : dq_get_translation (up_dq a) = up_v (n:=3) (dq_get_translation a).
Proof. reflexivity. Qed.

Lemma c73_dual_inverse : forall a, dq_inverse (up_dq a) = up_o up_dq (dq_inverse a).
Proof.
  intros a. unfold dq_inverse. cbn [up_dq dq_normalized q_real_].
  destruct (dq_normalized a); [reflexivity| ]. rewrite (c73_inverse OK). destruct (q_inverse (q_real_ a)); reflexivity.
Qed.

Lemma c73_dual_div : forall a b, dq_div (up_dq a) (up_dq b) = up_o up_dq (dq_div a b).
Proof.
  intros a b. unfold dq_div. cbn [up_dq q_real_ q_dual_]. rewrite !e_q_mul, e_q_sub, !(c73_div OK).
  destruct (q_div (q_mul (q_real_ a) (q_real_ b)) (q_mul (q_real_ b) (q_real_ b))); [ |reflexivity]. cbn [up_o].
  destruct (q_div (q_sub _ _) _); reflexivity.
Qed.

Lemma c73_dual_normalize : forall a, dq_normalize (up_dq a) = option_map up_dq (dq_normalize a).
Proof.
  intros a. unfold dq_normalize. cbn [up_dq dq_normalized q_real_ q_dual_].
  destruct (dq_normalized a) eqn:N; [cbn [option_map]; unfold up_dq; rewrite N; reflexivity| ].
  rewrite e_q_norm2, (e_nearly_zero OK).
  destruct (nearly_zero_cases OK (q_norm2 (q_real_ a))) as [[-> H]|[-> [H H0]]]; [reflexivity| ].
  cbn [negb]. rewrite !e_q_div_s by auto. reflexivity.
Qed.

Lemma c73_dual_is_normalized : forall a, dq_is_normalized (up_dq a) = dq_is_normalized a.
Proof.
  intros a. unfold dq_is_normalized. cbn [up_dq dq_normalized dq_real dq_dual q_real_ q_dual_].
  destruct (dq_normalized a) eqn:N; [reflexivity| ].
  rewrite !e_q_norm2, !(e_nearly_zero OK).
  change (dq_real a) with (q_real_ a); change (dq_dual a) with (q_dual_ a).
  destruct (nearly_zero_cases OK (q_norm2 (q_real_ a))) as [[-> H]|[-> [H H0]]]; [reflexivity| ].
  rewrite !e_q_div_s by auto. cbn [epsilon E_Float one E_Num].
  destruct (q_div_s (q_dual_ a) (q_norm2 (q_real_ a))) as [n0 (n1 & n2 & n3 & [])].
  destruct (q_dual_ a) as [m0 (m1 & m2 & m3 & [])].
  unfold q_real, q_imag, up_q, up_v. cbn [q0 q amap aget ix0 ix1 ix2 ahd atl fst snd].
  rewrite !(e_nearly_equal OK). reflexivity.
Qed.

Lemma c73_dual_log : forall a, dq_log (up_dq a) = up_o (option_map up_dq) (dq_log a).
Proof.
  intros a. unfold dq_log. cbn [up_dq dq_normalized]. destruct (dq_normalized a); [ |reflexivity].
  unfold q_axis_angle. change (dq_real (up_dq a)) with (up_q (q_real_ a)). change (dq_real a) with (q_real_ a).
  rewrite (c73_get_axis OK), c73_get_angle.
  destruct (q_get_axis (q_real_ a)); [ |reflexivity]. cbn [option_map unwrap].
  cbn [add one E_Num e2 R_Num]. rewrite e_div_ok by lra. reflexivity.
Qed.

Lemma c73_dual_rot_trans : forall r t, dq_new_from_rot_trans (up_q r) (up_v (n:=3) t) = up_o up_dq (dq_new_from_rot_trans r t).
Proof.
  intros r t. unfold dq_new_from_rot_trans. rewrite (c73_normalize OK). destruct (q_normalize r); [ |reflexivity].
  cbn [option_map unwrap]. cbn [add one E_Num e2 R_Num]. rewrite e_div_ok by lra. reflexivity.
Qed.

Lemma c73_dual_homogeneous : forall A, dq_new_from_homogeneous (up_m (n:=4) A) = up_o up_dq (dq_new_from_homogeneous A).
Proof.
  intros A. unfold dq_new_from_homogeneous.
  change (get_parts_raw (up_m (n:=4) A)) with (up_m (n:=3) (fst (get_parts_raw A)), up_v (n:=3) (snd (get_parts_raw A))).
  destruct (get_parts_raw A) as [r p]. cbn [fst snd].
  rewrite c73_from_rotation, (c73_normalize OK). destruct (q_normalize (q_from_rotation r)); [ |reflexivity].
  cbn [option_map unwrap]. apply c73_dual_rot_trans.
Qed.

Lemma c73_dual_translation : forall t, dq_new_from_translation (up_v (n:=3) t) = up_dq (dq_new_from_translation t).
Proof.
  intros (a & b & c & []). unfold dq_new_from_translation.
  change (up_v (n:=3) (a, (b, (c, tt)))) with (Some a, (Some b, (Some c, tt))).
  cbn -[div]. change (Some (1 + 1)) with (Some (1 + 1) : E). rewrite !e_div_ok by lra. reflexivity.
Qed.

Lemma c73_dual_array : forall x, dq_new_from_array (up_v (n:=7) x) = up_dq (dq_new_from_array x).
Proof.
  intros x. unfold dq_new_from_array. cbn [add one E_Num e2 R_Num]. rewrite e_div_ok by lra. reflexivity.
Qed.

Lemma c73_new_from_screw : forall l m t d,
  dq_new_from_screw_parameters (up_v (n:=3) l) (up_v (n:=3) m) (Some t) (Some d) = up_dq (dq_new_from_screw_parameters l m t d).
Proof.
  intros l m t d. unfold dq_new_from_screw_parameters. cbn [add one E_Num e2 R_Num neg E_Signed e1].
  rewrite !e_div_ok by lra. reflexivity.
Qed.

(** screw parameters: undefined exactly for half turns and for the real part of
    the wrong sign on the axis of the identity *)
Definition up_screw (x : V3 R * V3 R * R * R) : V3 E * V3 E * E * E :=
  let '(l, m, t, d) := x in (up_v (n:=3) l, up_v (n:=3) m, Some t, Some d).

Lemma half_angle_cases (a : Quaternion R) :
  let h := q_get_angle a / (1 + 1) in
  (q_get_angle a = 0 /\ v3_norm2 (q a) = 0 /\ 0 <= q0 a)
  \/ (v3_norm2 (q a) = 0 /\ q0 a < 0 /\ sin h = 0 /\ q_get_angle a = 2 * PI)
  \/ (v3_norm2 (q a) <> 0 /\ sin h <> 0 /\ (cos h = 0 <-> q0 a = 0)).
Proof.
  intros h. pose proof (v3_norm2_nn (q a)) as P.
  assert (EH : h = Ratan2 (v3_norm2 (q a)) (q0 a)).
  { unfold h, q_get_angle. cbn [mul add one R_Num fatan2 R_Float]. field. }
  assert (EA : q_get_angle a = 2 * Ratan2 (v3_norm2 (q a)) (q0 a)).
  { unfold q_get_angle. cbn [mul add one R_Num fatan2 R_Float]. ring. }
  set (n := v3_norm2 (q a)) in *. set (w := q0 a) in *. clearbody n w h.
  destruct (Req_dec n 0) as [->|N].
  - destruct (Rle_lt_dec 0 w) as [W|W].
    + left. split; [ |split; [reflexivity|exact W]]. rewrite EA. unfold Ratan2.
      destruct (Rlt_dec 0 w); [unfold Rdiv; rewrite Rmult_0_l, atan_0; ring| ].
      destruct (Rlt_dec w 0); [lra| ]. destruct (Rlt_dec 0 0); [lra|ring].
    + right. left. split; [reflexivity|split; [exact W| ]].
      assert (X : Ratan2 0 w = PI).
      { unfold Ratan2. destruct (Rlt_dec 0 w); [lra| ]. destruct (Rlt_dec w 0); [ |lra].
        destruct (Rle_dec 0 0); [ |lra]. unfold Rdiv. rewrite Rmult_0_l, atan_0. ring. }
      split; [rewrite EH, X; apply sin_PI|rewrite EA, X; ring].
  - right. right. destruct (Ratan2_spec w n ltac:(auto)) as (Hr & Hx & Hy & _).
    set (r := sqrt _) in *. rewrite EH. split; [exact N|split].
    + rewrite Hy. unfold Rdiv. apply Rmult_integral_contrapositive. split; [exact N|apply Rinv_neq_0_compat; lra].
    + rewrite Hx. split; intros Z.
      * unfold Rdiv in Z. apply Rmult_integral in Z as [Z|Z]; [exact Z|exfalso; revert Z; apply Rinv_neq_0_compat; lra].
      * rewrite Z. unfold Rdiv. ring.
Qed.

Lemma c74_screw_parameters_partial : forall a,
  dq_get_screw_parameters (up_dq a) = up_screw (dq_get_screw_parameters a)
  <-> ~ (q0 (dq_real a) = 0 /\ v3_norm2 (q (dq_real a)) <> 0)
      /\ ~ (q0 (dq_real a) < 0 /\ v3_norm2 (q (dq_real a)) = 0)
      \/ Rabs (q_get_angle (dq_real a)) < r_eps.
Proof.
  intros a. pose proof (eps_pos K OK) as E0. pose proof (eps_small K OK) as E1. pose proof PI2_1 as PP.
  pose proof (half_angle_cases (dq_real a)) as HC. cbv zeta in HC.
  unfold dq_get_screw_parameters. rewrite e_dq_translation.
  change (dq_real (up_dq a)) with (up_q (dq_real a)). rewrite c73_get_angle, (e_nearly_zero OK).
  cbn [add one E_Num e2 R_Num]. rewrite !e_div_ok by lra.
  set (th := q_get_angle (dq_real a)) in *. set (t := dq_get_translation a).
  destruct (nearly_zero_cases OK th) as [[-> H]|[-> [H H0]]]; cbn [negb].
  - split; [auto|intros _]. rewrite e_v3_norm2, (e_nearly_zero OK).
    destruct (nearly_zero_cases OK (v3_norm2 t)) as [[-> G]|[-> [G G0]]]; cbn [negb]; [reflexivity| ].
    rewrite e_v3_div by auto. reflexivity.
  - cbn [fsin fcos ftan E_Float e1].
    destruct HC as [(Z & _)|[(N & W & S & A)|(N & S & C)]]; [contradiction| | ].
    + split; [ |intros [[_ X]|X]; exfalso; [apply X; auto|lra]].
      rewrite S. intros X. exfalso. apply (f_equal (fun x => fst (fst (fst (fst x))))) in X. revert X.
      cbn -[Rdiv sin cos tan].
      destruct (Req_EM_T 0 0); [discriminate|easy].
    + destruct (Req_EM_T (cos (th / (1 + 1))) 0) as [Z|Z].
      * split; [ |intros [[X _]|X]; exfalso; [apply X; tauto|lra]].
        change (q_imag (up_q ?b)) with (up_v (n:=3) (q_imag b)). rewrite e_v3_div by exact S.
        change (e_tan (Some (th / (1 + 1)))) with (if Req_EM_T (cos (th / (1 + 1))) 0 then None else Some (tan (th / (1 + 1)))).
        destruct (Req_EM_T (cos (th / (1 + 1))) 0); [ |contradiction].
        intros X. exfalso. apply (f_equal (fun x => fst (snd (fst (fst x))))) in X. revert X.
        cbn -[Rdiv sin cos tan]. discriminate.
      * split; [intros _; left; split; tauto|intros _].
        change (q_imag (up_q ?b)) with (up_v (n:=3) (q_imag b)). rewrite e_v3_div by exact S.
        change (e_tan (Some (th / (1 + 1)))) with (ftan (Some (th / (1 + 1)))). rewrite e_tan_ok by exact Z.
        rewrite e_div_ok; [reflexivity| ]. unfold tan, Rdiv. apply Rmult_integral_contrapositive.
        split; [exact S|apply Rinv_neq_0_compat; exact Z].
Qed.

Lemma acos_m1 : acos (-1) = PI.
Proof. replace (-1) with (- (1)) by ring. rewrite acos_opp, acos_1. ring. Qed.
Lemma e_acos_none w : ~ (-1 <= w <= 1) -> facos (Some w) = None.
Proof. intros H. cbn. destruct (Rle_dec (-1) w); [destruct (Rle_dec w 1)| ]; auto; lra. Qed.
Lemma e_nearly_zero_none : nearly_zero (None : E) = false.
Proof. unfold nearly_zero, nearly_equal. cbn. destruct (Reqb 0 0); reflexivity. Qed.

(** powers: defined exactly when the scalar part is in (-1, 1] *)
Lemma c74_pow_partial : forall a x,
  dq_pow (up_dq a) (Some x) = up_dq (dq_pow a x) <-> -1 < q0 (dq_real a) <= 1.
Proof.
  intros a x. pose proof (eps_pos K OK) as E0. pose proof (eps_small K OK) as E1. pose proof PI2_1 as PP.
  unfold dq_pow. change (dq_real (up_dq a)) with (up_q (dq_real a)). change (dq_dual (up_dq a)) with (up_q (dq_dual a)).
  change (q_real (up_q (dq_real a))) with (Some (q0 (dq_real a))). rewrite e_dq_translation.
  change (q_real (dq_real a)) with (q0 (dq_real a)).
  set (w := q0 (dq_real a)).
  destruct (Rle_dec (-1) w) as [B1|B1]; [destruct (Rle_dec w 1) as [B2|B2]| ].
  2,3: split; [ |lra]; rewrite e_acos_none by lra;
    cbn [one mul div add sin_cos fsin fcos E_Num E_Float e1 e2 e_div]; rewrite e_nearly_zero_none;
    intros X; exfalso; apply (f_equal (fun d => q0 (q_real_ d))) in X; discriminate X.
  rewrite e_acos_ok by lra. cbn [mul add one E_Num e2 R_Num]. rewrite e_div_ok by lra.
  cbn [sin_cos fsin fcos E_Float e1]. rewrite (e_nearly_zero OK).
  cbn [facos R_Float fsin fcos sin_cos]. 
  assert (HA : (1 + 1) * acos w / (1 + 1) = acos w) by field.
  destruct (nearly_zero_cases OK ((1 + 1) * acos w)) as [[Z H]|[Z [H H0]]]; rewrite Z.
  - split; [intros _|reflexivity]. split; [ |exact B2].
    destruct (Rle_lt_or_eq_dec _ _ B1) as [G|G]; [exact G|exfalso].
    rewrite <- G, acos_m1 in H. apply Rabs_def2 in H. lra.
  - cbn [div R_Num]. rewrite HA. 
    assert (S : sin (acos w) = 0 <-> w = -1).
    { rewrite sin_acos by lra. split; intros G.
      - apply sqrt_eq_0 in G; [ |unfold Rsqr; nra]. unfold Rsqr in G.
        assert (w = 1 \/ w = -1) as [-> | ->] by (destruct (Rle_dec 0 w); [left|right]; nra); [ |reflexivity].
        exfalso. apply H0. rewrite acos_1. ring.
      - rewrite G. replace (1 - Rsqr (-1)) with 0 by (unfold Rsqr; ring). apply sqrt_0. }
    split.
    + intros X. split; [ |exact B2]. destruct (Rle_lt_or_eq_dec _ _ B1) as [G|G]; [exact G|exfalso].
      rewrite (proj2 S) in X by auto.
      apply (f_equal (fun d => fst (q (q_real_ d)))) in X. revert X. cbn -[Rdiv sin acos cos].
      destruct (Req_EM_T 0 0); [discriminate|easy].
    + intros [G _]. assert (N : sin (acos w) <> 0) by (intros F; apply S in F; lra).
      change (q_imag (up_q ?b)) with (up_v (n:=3) (q_imag b)).
      rewrite (e_v3_div (q_imag (dq_real a))) by exact N.
      change (q_real (up_q (dq_dual a))) with (Some (q_real (dq_dual a))). cbn [neg E_Signed e1 mul E_Num e2].
      rewrite (e_div_ok (q_real (dq_dual a) * - (1 + 1))) by exact N.
      rewrite (e_div_ok (q_real (dq_dual a) * - (1 + 1) / sin (acos w))) by lra.
      change (q_imag (up_q (dq_dual a))) with (up_v (n:=3) (q_imag (dq_dual a))).
      rewrite !e_v3_scale, e_v3_sub, e_v3_div by exact N.
      rewrite !e_div_ok by lra. cbn [e1 e2]. rewrite e_div_ok by lra. rewrite !e_v3_scale, e_v3_div by lra. reflexivity.
Qed.
End Defined.
