(** * ProofsDefined: no undefined operation (C73)

    Each theorem compares a function on the reals with the same function on
    [option R] (InstE.v), where a division by zero, a root of a negative number,
    ... gives an error: on the stated inputs the two agree, so the real-number
    theorems elsewhere do not rest on the values Coq gives to undefined terms. *)

From Coq Require Import Reals Lra Bool List Arith Lia.
From Verif Require Import Base Scalar Vec Slices Mat2 Mat3 Mat4 Mat5 Mat6 MatLoops MatOps Quat Transf DualQuat
  RingDet Spec Entries InstR RFacts InstE.
Import ListNotations.
Local Open Scope R_scope.

Section Defined.
Context {K : RConsts} (OK : RConstsOk K).

(** ** Vectors of three elements and quaternions: lifting *)
Lemma e_v3_add (v w : V3 R) : v3_add (up_v (n:=3) v) (up_v (n:=3) w) = up_v (n:=3) (v3_add v w).
Proof. reflexivity. Qed.
Lemma e_v3_sub (v w : V3 R) : v3_sub (up_v (n:=3) v) (up_v (n:=3) w) = up_v (n:=3) (v3_sub v w).
Proof. reflexivity. Qed.
Lemma e_v3_neg (v : V3 R) : v3_neg (up_v (n:=3) v) = up_v (n:=3) (v3_neg v).
Proof. reflexivity. Qed.
Lemma e_v3_scale (v : V3 R) s : v3_scale (up_v (n:=3) v) (Some s) = up_v (n:=3) (v3_scale v s).
Proof. reflexivity. Qed.
Lemma e_v3_cross (v w : V3 R) : v3_cross (up_v (n:=3) v) (up_v (n:=3) w) = up_v (n:=3) (v3_cross v w).
Proof. reflexivity. Qed.
Lemma e_v3_dot (v w : V3 R) : v3_dot (up_v (n:=3) v) (up_v (n:=3) w) = Some (v3_dot v w).
Proof. reflexivity. Qed.
Lemma e_v3_zeros : v3_zeros = up_v (n:=3) v3_zeros.
Proof. reflexivity. Qed.
Lemma e_v3_div (v : V3 R) s : s <> 0 -> v3_div (up_v (n:=3) v) (Some s) = up_v (n:=3) (v3_div v s).
Proof.
  intros H. destruct v as (a & b & c & []). unfold v3_div, up_v, amap; cbn [fst snd].
  cbn -[div]. rewrite !e_div_ok by auto. reflexivity.
Qed.
Lemma e_v3_norm2 (v : V3 R) : v3_norm2 (up_v (n:=3) v) = Some (v3_norm2 v).
Proof.
  destruct v as (a & b & c & []). unfold v3_norm2. apply e_sqrt_ok. cbn. nra.
Qed.
Lemma v3_norm2_nn (v : V3 R) : 0 <= v3_norm2 v.
Proof. apply sqrt_pos. Qed.

Lemma e_nearly_equal a b t : nearly_equal (Some a) (Some b) (Some t) = nearly_equal a b t.
Proof.
  unfold nearly_equal. cbn [abs eqb zero sub add ltb min_value max_value fmin E_Num E_Signed E_POrd E_Float
    R_Num R_Signed R_POrd R_Float e1 e2 eb e_min].
  destruct (Reqb_spec a b); [reflexivity| ].
  destruct (Reqb_spec a 0); [reflexivity| ].
  destruct (Reqb_spec b 0); [reflexivity| ].
  destruct (Rltb (Rabs a + Rabs b) (- r_max)); [reflexivity| ].
  cbn [orb]. rewrite e_div_ok; [reflexivity| ].
  pose proof (Rabs_pos_lt a ltac:(auto)). pose proof (Rabs_pos b). pose proof (max_large K OK).
  apply Rgt_not_eq. apply Rmin_glb_lt; lra.
Qed.
Lemma e_nearly_zero a : nearly_zero (Some a) = nearly_zero a.
Proof. apply e_nearly_equal. Qed.

Lemma e_q_add a b : q_add (up_q a) (up_q b) = up_q (q_add a b).
Proof. reflexivity. Qed.
Lemma e_q_sub a b : q_sub (up_q a) (up_q b) = up_q (q_sub a b).
Proof. reflexivity. Qed.
Lemma e_q_neg a : q_neg (up_q a) = up_q (q_neg a).
Proof. reflexivity. Qed.
Lemma e_q_conj a : q_conj (up_q a) = up_q (q_conj a).
Proof. reflexivity. Qed.
Lemma e_q_mul a b : q_mul (up_q a) (up_q b) = up_q (q_mul a b).
Proof. reflexivity. Qed.
Lemma e_q_scale a s : q_scale (up_q a) (Some s) = up_q (q_scale a s).
Proof. reflexivity. Qed.
Lemma e_q_dot a b : q_dot (up_q a) (up_q b) = Some (q_dot a b).
Proof. reflexivity. Qed.
Lemma e_q_abs2 a : q_abs2 (up_q a) = Some (q_abs2 a).
Proof. reflexivity. Qed.
Lemma e_q_to_rotation a : q_to_rotation (up_q a) = up_m (n:=3) (q_to_rotation a).
Proof. reflexivity. Qed.
Lemma e_q_div_s a s : s <> 0 -> q_div_s (up_q a) (Some s) = up_q (q_div_s a s).
Proof.
  intros. unfold q_div_s, up_q, q_new. cbn [q0 q normalized]. rewrite e_div_ok, e_v3_div by auto. reflexivity.
Qed.
Lemma q_dot_nn (a : Quaternion R) : 0 <= q_dot a a.
Proof. destruct a as [w (x & y & z & []) f]. cbn. nra. Qed.
Lemma e_q_norm2 a : q_norm2 (up_q a) = Some (q_norm2 a).
Proof. unfold q_norm2. rewrite e_q_dot. apply e_sqrt_ok, q_dot_nn. Qed.
Lemma e_q_abs_imag a : q_abs_imag (up_q a) = Some (q_abs_imag a).
Proof. apply e_v3_norm2. Qed.

(** ** Quaternions *)
Lemma c73_normalize : forall a, q_normalize (up_q a) = option_map up_q (q_normalize a).
Proof.
  intros a. unfold q_normalize. cbn [normalized up_q]. destruct (normalized a) eqn:N; [reflexivity| ].
  rewrite e_q_norm2, e_nearly_zero. destruct (nearly_zero_cases OK (q_norm2 a)) as [[-> H]|[-> [H H0]]]; [reflexivity| ].
  cbn [negb]. rewrite e_q_div_s by auto. reflexivity.
Qed.

Lemma c73_inverse : forall a, q_inverse (up_q a) = option_map up_q (q_inverse a).
Proof.
  intros a. unfold q_inverse. cbn [normalized up_q]. destruct (normalized a) eqn:N; [reflexivity| ].
  rewrite e_q_abs2, e_nearly_zero. destruct (nearly_zero_cases OK (q_abs2 a)) as [[-> H]|[-> [H H0]]]; [reflexivity| ].
  cbn [negb]. rewrite e_q_conj, e_q_div_s by auto. reflexivity.
Qed.

Lemma c73_div : forall a b, q_div (up_q a) (up_q b) = up_o up_q (q_div a b).
Proof.
  intros a b. unfold q_div. rewrite c73_inverse. destruct (q_inverse b); reflexivity.
Qed.

Lemma e_v3_normalize v : v3_normalize (up_v (n:=3) v) = up_o (option_map (up_v (n:=3))) (v3_normalize v).
Proof.
  unfold v3_normalize. rewrite e_v3_norm2. cbn [eqb E_Num eb zero R_Num].
  destruct (Reqb_spec (v3_norm2 v) 0) as [H|H]; [reflexivity| ]. cbn [negb].
  destruct v as (a & b & c & []). set (n := v3_norm2 _) in *. clearbody n.
  change (up_v (n:=3) (a, (b, (c, tt)))) with (Some a, (Some b, (Some c, tt))).
  cbn -[div]. rewrite !e_div_ok by auto. reflexivity.
Qed.

Lemma c73_rotation : forall theta v, q_rotation (Some theta) (up_v (n:=3) v) = up_o up_q (q_rotation theta v).
Proof.
  intros theta v. unfold q_rotation. rewrite e_v3_normalize.
  destruct (v3_normalize v) as [ [n| ]| ]; try reflexivity.
  cbn [up_o option_map unwrap]. unfold sin_cos. cbn [add one E_Num e2 R_Num].
  rewrite e_div_ok by lra. reflexivity.
Qed.

Lemma c73_rotation_norm_encoded : forall v, q_rotation_norm_encoded (up_v (n:=3) v) = up_q (q_rotation_norm_encoded v).
Proof.
  intros v. unfold q_rotation_norm_encoded. rewrite e_v3_norm2, e_nearly_zero.
  destruct (nearly_zero_cases OK (v3_norm2 v)) as [[-> H]|[-> [H H0]]]; [reflexivity| ].
  cbn [negb]. unfold sin_cos. change (lit_2 (T := E)) with (Some 2). rewrite e_div_ok by lra.
  cbn [fsin fcos E_Float e1]. rewrite e_div_ok by auto. reflexivity.
Qed.

Lemma c73_from_euler_angles : forall y p r,
  q_from_euler_angles (Some y) (Some p) (Some r) = up_q (q_from_euler_angles y p r).
Proof.
  intros. unfold q_from_euler_angles. cbn [add one E_Num e2 R_Num]. rewrite !e_div_ok by lra. reflexivity.
Qed.

Lemma c73_get_angle : forall a, q_get_angle (up_q a) = Some (q_get_angle a).
Proof. intros a. unfold q_get_angle. cbn [up_q q]. rewrite e_v3_norm2. reflexivity. Qed.

Lemma c73_get_axis : forall a, q_get_axis (up_q a) = option_map (up_v (n:=3)) (q_get_axis a).
Proof.
  intros a. unfold q_get_axis. rewrite c73_normalize. destruct (q_normalize a) as [b| ]; [ |reflexivity].
  cbn [option_map]. rewrite c73_get_angle. change (lit_2 (T := E)) with (Some 2). rewrite e_div_ok by lra.
  cbn [fsin E_Float e1 abs E_Signed epsilon ltb E_POrd eb R_Float R_Signed R_POrd lit_2 div R_Num].
  destruct (Rltb_spec r_eps (Rabs (sin (q_get_angle b / 2)))) as [H|H]; [ |reflexivity].
  cbn [up_q q]. rewrite e_v3_div; [reflexivity| ].
  intros E. rewrite E, Rabs_R0 in H. pose proof (eps_pos K OK). lra.
Qed.

Lemma c73_normalize_q : forall a, q_normalize_q (up_q a) = up_q (q_normalize_q a).
Proof.
  intros a. unfold q_normalize_q. rewrite e_q_dot.
  cbn [epsilon ltb E_POrd eb E_Float R_Float R_POrd].
  destruct (Rltb_spec r_eps (q_dot a a)) as [H|H]; [ |reflexivity].
  pose proof (eps_pos K OK). rewrite e_sqrt_ok by lra.
  rewrite e_q_div_s; [reflexivity| ]. apply Rgt_not_eq, sqrt_lt_R0. lra.
Qed.

Lemma c73_argq : forall a, q_argq (up_q a) = up_q (q_argq a).
Proof. intros a. unfold q_argq. apply (c73_normalize_q (q_new 0 (q a))). Qed.

Lemma c73_exp : forall a, q_exp (up_q a) = up_q (q_exp a).
Proof.
  intros a. unfold q_exp. rewrite e_q_abs_imag, e_q_norm2.
  cbn [epsilon ltb E_POrd eb E_Float R_Float R_POrd].
  destruct (Rltb_spec r_eps (q_abs_imag a)) as [H|H]; [ |reflexivity].
  pose proof (eps_pos K OK). cbn [fsin fexp e1 fcos E_Float]. rewrite e_div_ok by lra. reflexivity.
Qed.

(** the logarithm of a quaternion needs a norm: undefined exactly on an unflagged
    zero quaternion *)
Lemma q_norm2_0 (a : Quaternion R) : q_norm2 a = 0 -> q_dot a a = 0.
Proof. intros H. apply sqrt_eq_0; [apply q_dot_nn|exact H]. Qed.

Lemma c73_ln : forall a, q_ln (up_q a) = up_q (q_ln a) <-> normalized a = true \/ q_dot a a <> 0.
Proof.
  intros a. assert (L : forall b x, 0 < x ->
    (let real := q_real (up_q b) in let imag_norm := q_abs_imag (up_q b) in
     let arg_angle := fatan2 imag_norm real in
     if ltb epsilon imag_norm then let imag_norm := div arg_angle imag_norm in
       mkQ (fln (Some x)) (v3_scale (q (up_q b)) imag_norm) false
     else mkQ (fln (Some x)) [| arg_angle; zero; zero |] false)
    = up_q (let real := q_real b in let imag_norm := q_abs_imag b in
     let arg_angle := fatan2 imag_norm real in
     if ltb epsilon imag_norm then let imag_norm := div arg_angle imag_norm in
       mkQ (fln x) (v3_scale (q b) imag_norm) false
     else mkQ (fln x) [| arg_angle; zero; zero |] false)).
  { intros b x Hx. cbv zeta. rewrite e_q_abs_imag, e_ln_ok by auto.
    cbn [epsilon ltb E_POrd eb E_Float R_Float R_POrd].
    destruct (Rltb_spec r_eps (q_abs_imag b)) as [H|H]; [ |reflexivity].
    pose proof (eps_pos K OK). cbn [fatan2 e2 up_q q_real q0 E_Float]. rewrite e_div_ok by lra. reflexivity. }
  unfold q_ln, q_normalize_a. cbn [up_q normalized].
  destruct (normalized a) eqn:N.
  - split; [auto|intros _]. apply (L a 1). lra.
  - rewrite e_q_norm2. split.
    + intros H. right. intros Z. assert (Z' : q_norm2 a = 0).
      { unfold q_norm2. rewrite Z. apply sqrt_0. }
      rewrite Z' in H. apply (f_equal q0) in H. revert H.
      match goal with |- q0 (if ?c then _ else _) = _ -> _ => destruct c end;
        cbn [q0 fln E_Float e_ln]; destruct (Rlt_dec 0 0); try lra; discriminate.
    + intros [H|H]; [discriminate| ].
      assert (P : 0 < q_norm2 a).
      { apply sqrt_lt_R0. pose proof (q_dot_nn a). lra. }
      rewrite e_q_div_s by lra. apply (L (mkQ (q0 (q_div_s a (q_norm2 a))) (q (q_div_s a (q_norm2 a))) true)). auto.
Qed.

Lemma c73_sqrt : forall a, normalized a = true \/ q_dot a a <> 0 -> q_sqrt (up_q a) = up_q (q_sqrt a).
Proof.
  intros a H. unfold q_sqrt. rewrite (proj2 (c73_ln a) H).
  cbn [add one E_Num e2 R_Num]. rewrite e_div_ok by lra. rewrite e_q_scale, c73_exp. reflexivity.
Qed.
Lemma c73_pow : forall a b, normalized a = true \/ q_dot a a <> 0 -> q_pow (up_q a) (up_q b) = up_q (q_pow a b).
Proof.
  intros a b H. unfold q_pow. rewrite (proj2 (c73_ln a) H), e_q_mul, c73_exp. reflexivity.
Qed.
Lemma c73_sin : forall a, q_sin (up_q a) = up_o up_q (q_sin a).
Proof.
  intros a. unfold q_sin. rewrite c73_argq, !e_q_neg, !e_q_mul, !c73_exp, e_q_sub.
  cbn [add one E_Num e2 R_Num]. rewrite e_q_scale. apply c73_div.
Qed.
Lemma c73_cos : forall a, q_cos (up_q a) = up_q (q_cos a).
Proof.
  intros a. unfold q_cos. rewrite c73_argq, !e_q_neg, !e_q_mul, !c73_exp, e_q_add.
  cbn [add one E_Num e2 R_Num]. apply e_q_div_s. lra.
Qed.

Lemma c73_slerp : forall a b t, q_slerp (up_q a) (up_q b) (Some t) = up_q (q_slerp a b t).
Proof.
  intros a b t. unfold q_slerp. rewrite e_q_dot.
  cbn [leb one abs E_POrd E_Num E_Signed R_POrd R_Num R_Signed eb e1 ltb zero neg].
  destruct (Rleb_spec 1 (Rabs (q_dot a b))) as [H|H]; [reflexivity| ].
  assert (L : forall (r : bool) c, -1 < c < 1 -> 
    let go {T} {nT : Num T} {sT : Signed T} {oT : POrd T} {fT : Float T} (a b : Quaternion T) (t : T) (result : Quaternion T) (reverse_a : bool) (cos_half_theta : T) : Quaternion T :=
    let half_theta := facos cos_half_theta in
    let sin_half_theta := fsqrt (sub one (mul cos_half_theta cos_half_theta)) in
    if ltb (abs sin_half_theta) lit_1em3 then
      if negb reverse_a then
        mkQ (add (mul (sub one t) (q0 a)) (mul t (q0 b)))
            [| add (mul (sub one t) (q a).[0]) (mul t (q b).[0]);
               add (mul (sub one t) (q a).[1]) (mul t (q b).[2]);
               add (mul (sub one t) (q a).[2]) (mul t (q b).[1]) |]
            (normalized result)
      else result
    else
      let aux1 := div (fsin (mul (sub one t) half_theta)) sin_half_theta in
      let aux2 := div (fsin (mul t half_theta)) sin_half_theta in
      if negb reverse_a then
        mkQ (add (mul aux1 (q0 a)) (mul aux2 (q0 b)))
            (v3_add (v3_scale (q a) aux1) (v3_scale (q b) aux2)) (normalized result)
      else
        mkQ (sub (mul aux1 (q0 a)) (mul aux2 (q0 b)))
            (v3_sub (v3_scale (q a) aux1) (v3_scale (q b) aux2)) (normalized result) in
    go (up_q a) (up_q b) (Some t) q_zero r (Some c) = up_q (go a b t q_zero r c)).
  { intros r c Hc. cbv beta zeta. rewrite e_acos_ok by lra.
    cbn [sub mul one E_Num e2 R_Num]. rewrite e_sqrt_ok by nra.
    cbn [abs E_Signed e1 ltb E_POrd eb lit_1em3 E_Float R_Float R_Signed R_POrd fsqrt].
    destruct (Rltb_spec (Rabs (sqrt (1 - c * c))) r_1em3) as [H'|H']; [destruct r; reflexivity| ].
    pose proof (em3_pos K OK).
    assert (sqrt (1 - c * c) <> 0). { intros Z. rewrite Z, Rabs_R0 in H'. lra. }
    cbn [fsin e1 E_Float]. rewrite !e_div_ok by auto. destruct r; reflexivity. }
  apply Rnot_le_lt in H. apply Rabs_def2 in H.
  destruct (Rltb (q_dot a b) 0).
  - apply (L true (- q_dot a b)). lra.
  - apply (L false (q_dot a b)). lra.
Qed.

(** every matrix, rotation or not: the chosen [t] is at least one *)
Lemma c73_from_rotation : forall r : M33 R, q_from_rotation (up_m (n:=3) r) = up_q (q_from_rotation r).
Proof.
  intros r. destruct r as ((a & b & c & []) & (d & e & f & []) & (g & h & l & []) & []).
  assert (L : forall x t, 1 <= t -> q_div_s (q_scale (up_q x) (div one (add one one))) (fsqrt (Some t))
    = up_q (q_div_s (q_scale x (1 / (1 + 1))) (sqrt t))).
  { intros x t Ht. rewrite e_sqrt_ok by lra. cbn [add one E_Num e2 R_Num]. rewrite e_div_ok by lra.
    rewrite e_q_scale, e_q_div_s; [reflexivity| ]. apply Rgt_not_eq, sqrt_lt_R0. lra. }
  unfold q_from_rotation.
  change (up_m (n:=3) ((a, (b, (c, tt))), ((d, (e, (f, tt))), ((g, (h, (l, tt))), tt))))
    with ((Some a, (Some b, (Some c, tt))), ((Some d, (Some e, (Some f, tt))), ((Some g, (Some h, (Some l, tt))), tt))).
  cbn -[Rplus Rmult Rminus Ropp Rdiv Rltb IZR sqrt q_div_s q_scale q_new_from fsqrt div add one].
  destruct (Rltb_spec l 0).
  - destruct (Rltb_spec e a).
    + apply (L (q_new_from (h - f) (1 + a - e - l) (d + b) (c + g)) (1 + a - e - l)). lra.
    + apply (L (q_new_from (c - g) (d + b) (1 - a + e - l) (h + f)) (1 - a + e - l)). lra.
  - destruct (Rltb_spec a (- e)).
    + apply (L (q_new_from (d - b) (c + g) (h + f) (1 - a - e + l)) (1 - a - e + l)). lra.
    + apply (L (q_new_from (1 + a + e + l) (h - f) (c - g) (d - b)) (1 + a + e + l)). lra.
Qed.
End Defined.
