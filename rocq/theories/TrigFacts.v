(** * TrigFacts: the real elementary functions used by the model *)

From Coq Require Import Reals Lra Lia.
From Verif Require Import InstR.
Local Open Scope R_scope.

Lemma sin2_cos2' x : sin x * sin x + cos x * cos x = 1.
Proof. pose proof (sin2_cos2 x) as H. unfold Rsqr in H. exact H. Qed.

Lemma cos_atan' z : cos (atan z) = / sqrt (1 + z * z).
Proof. rewrite cos_atan. unfold Rsqr, Rdiv. apply Rmult_1_l. Qed.
Lemma sin_atan' z : sin (atan z) = z / sqrt (1 + z * z).
Proof. rewrite sin_atan. reflexivity. Qed.

Lemma sqrt_ratio x y : x <> 0 -> sqrt (1 + y / x * (y / x)) = sqrt (x * x + y * y) / Rabs x.
Proof.
  intros Hx. replace (1 + y / x * (y / x)) with ((x * x + y * y) / (x * x)) by (field; auto).
  rewrite sqrt_div_alt by nra. f_equal. change (x * x) with (Rsqr x). apply sqrt_Rsqr_abs.
Qed.

(** atan2 gives the angle of the point (x, y) *)
Lemma Ratan2_spec x y : x <> 0 \/ y <> 0 ->
  let r := sqrt (x * x + y * y) in
  0 < r /\ cos (Ratan2 y x) = x / r /\ sin (Ratan2 y x) = y / r
  /\ - PI < Ratan2 y x <= PI.
Proof.
  intros H r. pose proof PI_RGT_0 as HPI.
  assert (Hp : 0 < x * x + y * y) by (destruct H; nra).
  assert (Hr : 0 < r) by (apply sqrt_lt_R0; exact Hp).
  split; [exact Hr| ]. unfold Ratan2.
  destruct (Rlt_dec 0 x) as [Px|Px].
  { assert (Nx : x <> 0) by lra. pose proof (atan_bound (y / x)).
    rewrite cos_atan', sin_atan', sqrt_ratio by exact Nx. fold r.
    rewrite Rabs_pos_eq by lra. repeat split; try (field; lra); lra. }
  destruct (Rlt_dec x 0) as [Qx|Qx].
  { assert (Nx : x <> 0) by lra. pose proof (atan_bound (y / x)) as B.
    assert (C : cos (atan (y / x)) = - (x / r) /\ sin (atan (y / x)) = - (y / r)).
    { rewrite cos_atan', sin_atan', sqrt_ratio by exact Nx. fold r.
      rewrite Rabs_left by lra. split; field; lra. }
    destruct C as [C S].
    destruct (Rle_dec 0 y) as [Py|Py].
    - rewrite neg_cos, neg_sin, C, S. repeat split; try lra.
      assert (atan (y / x) <= 0).
      { destruct (Req_dec y 0) as [->|Ny].
        - unfold Rdiv. rewrite Rmult_0_l, atan_0. lra.
        - left. rewrite <- atan_0. apply atan_increasing.
          assert (P : 0 < y / - x) by (apply Rdiv_lt_0_compat; lra).
          replace (y / x) with (- (y / - x)) by (field; lra). lra. }
      lra.
    - replace (cos (atan (y / x) - PI)) with (- cos (atan (y / x)))
        by (rewrite cos_minus, cos_PI, sin_PI; ring).
      replace (sin (atan (y / x) - PI)) with (- sin (atan (y / x)))
        by (rewrite sin_minus, cos_PI, sin_PI; ring).
      rewrite C, S. repeat split; try lra.
      assert (0 < atan (y / x)).
      { rewrite <- atan_0. apply atan_increasing.
        replace (y / x) with (- y / - x) by (field; exact Nx). apply Rdiv_lt_0_compat; lra. }
      lra. }
  assert (Zx : x = 0) by lra. subst x. destruct H as [H|H]; [lra| ].
  assert (R : r = Rabs y).
  { unfold r. replace (0 * 0 + y * y) with (Rsqr y) by (unfold Rsqr; ring). apply sqrt_Rsqr_abs. }
  destruct (Rlt_dec 0 y) as [Py|Py].
  { rewrite cos_PI2, sin_PI2, R, Rabs_pos_eq by lra. repeat split; try lra; field; lra. }
  destruct (Rlt_dec y 0) as [Qy|Qy]; [ |lra].
  rewrite cos_neg, sin_neg, cos_PI2, sin_PI2, R, Rabs_left by lra.
  repeat split; try lra; field; lra.
Qed.

Lemma Ratan2_unit x y : x * x + y * y = 1 -> cos (Ratan2 y x) = x /\ sin (Ratan2 y x) = y.
Proof.
  intros H. assert (N : x <> 0 \/ y <> 0).
  { destruct (Req_dec x 0) as [->|]; [right|left]; nra. }
  destruct (Ratan2_spec x y N) as (_ & C & S & _). rewrite H, sqrt_1 in C, S.
  rewrite C, S. split; field.
Qed.

Lemma Ratan2_0_0 : Ratan2 0 0 = 0.
Proof. unfold Ratan2. destruct (Rlt_dec 0 0); [lra| ]. destruct (Rlt_dec 0 0); [lra| ]. reflexivity. Qed.

(** with a non-negative ordinate the angle is in [0, PI] *)
Lemma Ratan2_nonneg x y : 0 <= y -> 0 <= Ratan2 y x <= PI.
Proof.
  intros Hy. pose proof PI_RGT_0 as HPI. unfold Ratan2.
  destruct (Rlt_dec 0 x) as [Px|Px].
  { pose proof (atan_bound (y / x)). assert (0 <= atan (y / x)); [ |lra].
    destruct Hy as [Hy|<-].
    - left. rewrite <- atan_0. apply atan_increasing. apply Rdiv_lt_0_compat; lra.
    - unfold Rdiv. rewrite Rmult_0_l, atan_0. lra. }
  destruct (Rlt_dec x 0) as [Qx|Qx].
  { destruct (Rle_dec 0 y); [ |lra]. pose proof (atan_bound (y / x)).
    assert (atan (y / x) <= 0); [ |lra].
    destruct Hy as [Hy|<-].
    - left. rewrite <- atan_0. apply atan_increasing.
      assert (P : 0 < y / - x) by (apply Rdiv_lt_0_compat; lra).
      replace (y / x) with (- (y / - x)) by (field; lra). lra.
    - unfold Rdiv. rewrite Rmult_0_l, atan_0. lra. }
  destruct (Rlt_dec 0 y); [lra| ]. destruct (Rlt_dec y 0); lra.
Qed.

(** the angle in (-PI, PI] is determined by its cosine and sine *)
Lemma angle_unique a b : - PI < a <= PI -> - PI < b <= PI -> cos a = cos b -> sin a = sin b -> a = b.
Proof.
  intros Ha Hb C S. pose proof PI_RGT_0.
  assert (E : cos (a - b) = 1).
  { rewrite cos_minus, C, S. pose proof (sin2_cos2' b). lra. }
  assert (Z : sin ((a - b) / 2) = 0).
  { pose proof (cos_2a_sin ((a - b) / 2)) as D. replace (2 * ((a - b) / 2)) with (a - b) in D by field.
    nra. }
  destruct (Rlt_dec 0 (a - b)) as [P|P].
  { assert (0 < sin ((a - b) / 2)) by (apply sin_gt_0; lra). lra. }
  destruct (Rlt_dec (a - b) 0) as [Q|Q]; [ |lra].
  assert (0 < sin (- ((a - b) / 2))) by (apply sin_gt_0; lra).
  rewrite sin_neg in *. lra.
Qed.

Lemma Ratan2_polar a r : 0 < r -> - PI < a <= PI -> Ratan2 (r * sin a) (r * cos a) = a.
Proof.
  intros Hr Ha. pose proof (sin2_cos2' a) as E.
  assert (N : r * cos a <> 0 \/ r * sin a <> 0).
  { destruct (Req_dec (r * cos a) 0); [right|left]; nra. }
  destruct (Ratan2_spec _ _ N) as (_ & C & S & B).
  assert (R : sqrt (r * cos a * (r * cos a) + r * sin a * (r * sin a)) = r).
  { replace (r * cos a * (r * cos a) + r * sin a * (r * sin a)) with (Rsqr r) by (unfold Rsqr; nra).
    rewrite sqrt_Rsqr_abs. apply Rabs_pos_eq. lra. }
  rewrite R in C, S. apply angle_unique; auto.
  - rewrite C. field. lra.
  - rewrite S. field. lra.
Qed.

Lemma half_angle a : cos a = cos (a / 2) * cos (a / 2) - sin (a / 2) * sin (a / 2)
  /\ sin a = 2 * sin (a / 2) * cos (a / 2).
Proof.
  pose proof (cos_2a (a / 2)) as C. pose proof (sin_2a (a / 2)) as S.
  replace (2 * (a / 2)) with a in C, S by field. auto.
Qed.

Lemma sin_acos' x : -1 <= x <= 1 -> sin (acos x) = sqrt (1 - x * x).
Proof. intros. rewrite sin_acos by assumption. unfold Rsqr. reflexivity. Qed.
