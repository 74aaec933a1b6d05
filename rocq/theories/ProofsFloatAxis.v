(** * ProofsFloatAxis: the axis and the angle of float quaternions (C102) *)

From Coq Require Import List Arith ZArith Reals Bool Lra Lia.
From Flocq Require Import Core Relative Sterbenz Mult_error IEEE754.BinarySingleNaN.
From Verif Require Import Base Scalar Vec Mat2 Mat3 Mat4 Mat5 Mat6 Slices MatLoops MatOps Quat Transf DualQuat RingDet Spec LoopFacts Entries InstZ InstR RFacts TrigFacts LUFacts QRFacts ProofsRing ProofsQuat ProofsRot ProofsRigid ProofsEuler ProofsSlerp InstF FloatFacts ProofsFloat ProofsFloat2 ProofsFloatErr ProofsFloatInv ProofsFloatNorm ProofsFloatRot ProofsFloatDrift ProofsFloatRigid ProofsFloatDQ ProofsFloatFromRot ProofsFloatRotH ProofsFloatQR ExpSeries ProofsExp ProofsFloatAngles ProofsFloatEuler ProofsFloatLog ProofsFloatScrew ProofsFloatSlerp.
Local Open Scope R_scope.

(** the angle of a point near a point of the upper half circle *)
Lemma sin_angle x t : 0 <= x <= PI / 2 -> sin x <= t -> t <= 53 / 1000 -> x <= 1002 / 1000 * t.
Proof.
  intros Hx Hs Ht. pose proof PI_RGT_0 as P0. assert (P3 : 2 < PI) by (pose proof (PI_ineq 0) as [Q _]; unfold tg_alt, PI_tg in Q; cbn in Q; lra).
  assert (X : x <= / 10).
  { destruct (Rle_lt_dec x (/ 10)) as [L|L]; [exact L|exfalso]. assert (S : sin (/ 10) <= sin x) by (apply sin_incr_1; lra).
    destruct (small_trig (/ 10) ltac:(lra)) as [_ B]. apply Rabs_le_inv in B. lra. }
  destruct (small_trig x ltac:(lra)) as [_ B]. apply Rabs_le_inv in B. assert (Y : x * x <= / 10 * x) by (apply Rmult_le_compat_r; lra).
  assert (X2 : x <= 6 / 100).
  { assert (x * (x * x / 2) <= x * (/ 100 / 2)) by (apply Rmult_le_compat_l; [lra|nra]). lra. }
  assert (x * (x * x / 2) <= x * (36 / 10000 / 2)) by (apply Rmult_le_compat_l; [lra|nra]). lra.
Qed.

Lemma angle_near x y h t : 0 <= h <= PI -> 0 <= y -> hyp (x - cos h) (y - sin h) <= t -> t <= / 20 -> (x <> 0 \/ y <> 0) /\ Rabs (Ratan2 y x - h) <= 11 / 10 * t.
Proof.
  intros Hh Hy D L. pose proof (hyp_pos (x - cos h) (y - sin h)) as D0. pose proof (hyp_sq (x - cos h) (y - sin h)) as DS. set (d := hyp (x - cos h) (y - sin h)) in *.
  pose proof (sin2_cos2 h) as E. unfold Rsqr in E. set (c := cos h) in *. set (s := sin h) in *.
  assert (I1 : Rabs ((x - c) * c + (y - s) * s) <= d).
  { rewrite <- (Rabs_pos_eq d) by exact D0. apply Rsqr_le_abs_0. unfold Rsqr. rewrite DS.
    assert (Q : (x - c) * (x - c) + (y - s) * (y - s) - ((x - c) * c + (y - s) * s) * ((x - c) * c + (y - s) * s) = ((x - c) * s - (y - s) * c) * ((x - c) * s - (y - s) * c)).
    { transitivity (((x - c) * (x - c) + (y - s) * (y - s)) * (s * s + c * c) - ((x - c) * c + (y - s) * s) * ((x - c) * c + (y - s) * s)); [rewrite E; ring|ring]. } pose proof (Rle_0_sqr ((x - c) * s - (y - s) * c)) as Q2. unfold Rsqr in Q2. lra. }
  assert (I2 : Rabs ((x - c) * s - (y - s) * c) <= d).
  { rewrite <- (Rabs_pos_eq d) by exact D0. apply Rsqr_le_abs_0. unfold Rsqr. rewrite DS.
    assert (Q : (x - c) * (x - c) + (y - s) * (y - s) - ((x - c) * s - (y - s) * c) * ((x - c) * s - (y - s) * c) = ((x - c) * c + (y - s) * s) * ((x - c) * c + (y - s) * s)).
    { transitivity (((x - c) * (x - c) + (y - s) * (y - s)) * (s * s + c * c) - ((x - c) * s - (y - s) * c) * ((x - c) * s - (y - s) * c)); [rewrite E; ring|ring]. } pose proof (Rle_0_sqr ((x - c) * c + (y - s) * s)) as Q2. unfold Rsqr in Q2. lra. }
  replace ((x - c) * c + (y - s) * s) with (x * c + y * s - (s * s + c * c)) in I1 by ring. rewrite E in I1. replace ((x - c) * s - (y - s) * c) with (x * s - y * c) in I2 by ring.
  apply Rabs_le_inv in I1.
  assert (N : x <> 0 \/ y <> 0) by (destruct (Req_dec x 0) as [X|X]; [right; intros Y; rewrite X, Y in I1; lra|left; exact X]). split; [exact N| ].
  destruct (Ratan2_spec x y N) as (Rp & C & S & _). pose proof (Ratan2_nonneg x y Hy) as Rg. set (a := Ratan2 y x) in *. set (r := sqrt (x * x + y * y)) in *.
  assert (RS : r * r = x * x + y * y) by (apply sqrt_sqrt; nra).
  assert (RL : x * c + y * s <= r).
  { assert (Q : r * r - (x * c + y * s) * (x * c + y * s) = (x * s - y * c) * (x * s - y * c)).
    { rewrite RS. transitivity ((x * x + y * y) * (s * s + c * c) - (x * c + y * s) * (x * c + y * s)); [rewrite E; ring|ring]. } pose proof (Rle_0_sqr (x * s - y * c)) as Q2. unfold Rsqr in Q2. apply Rsqr_incr_0; [unfold Rsqr; lra|lra|lra]. }
  assert (CP : 0 < cos (a - h)).
  { rewrite cos_minus, C, S. fold c s. replace (x / r * c + y / r * s) with ((x * c + y * s) / r) by (field; lra). apply Rdiv_lt_0_compat; lra. }
  assert (SP : Rabs (sin (a - h)) <= t / (1 - t)).
  { rewrite sin_minus, C, S. fold c s. replace (y / r * c - x / r * s) with (- (x * s - y * c) * / r) by (field; lra). rewrite Rabs_mult, Rabs_Ropp, (Rabs_pos_eq (/ r)) by (left; apply Rinv_0_lt_compat, Rp).
    unfold Rdiv. apply Rmult_le_compat; [apply Rabs_pos|left; apply Rinv_0_lt_compat, Rp|lra|apply Rinv_le_contravar; lra]. }
  assert (T1 : t / (1 - t) <= 1053 / 1000 * t).
  { apply Rmult_le_reg_r with (1 - t); [lra| ]. unfold Rdiv. rewrite Rmult_assoc, Rinv_l, Rmult_1_r by lra. nra. }
  assert (G : forall w, 0 <= w <= PI -> 0 < cos w -> w <= PI / 2).
  { intros w Hw K. destruct (Rle_lt_dec w (PI / 2)) as [W|W]; [exact W|exfalso]. assert (cos w <= 0) by (apply cos_le_0; lra). lra. }
  destruct (Rle_lt_dec 0 (a - h)) as [K|K].
  - rewrite Rabs_pos_eq by exact K. pose proof (G (a - h) ltac:(lra) CP) as W. rewrite Rabs_pos_eq in SP by (apply sin_ge_0; lra).
    pose proof (sin_angle (a - h) (1053 / 1000 * t) ltac:(lra) ltac:(lra) ltac:(lra)). lra.
  - rewrite Rabs_left by exact K. replace (a - h) with (- (- (a - h))) in SP, CP by ring. rewrite sin_neg, Rabs_Ropp in SP. rewrite cos_neg in CP.
    pose proof (G (- (a - h)) ltac:(lra) CP) as W. rewrite Rabs_pos_eq in SP by (apply sin_ge_0; lra).
    pose proof (sin_angle (- (a - h)) (1053 / 1000 * t) ltac:(lra) ltac:(lra) ltac:(lra)). lra.
Qed.

Section F.
Context {prec emax : Z} {Hp : Prec_gt_0 prec} {He : Prec_lt_emax prec emax} {O : FOracle (binary_float prec emax)}.
Notation fl := (binary_float prec emax).
Notation uro := (uro (prec := prec)).
Notation eta := (eta (prec := prec) (emax := emax)).
Hypothesis Hp11 : (11 <= prec)%Z.
Hypothesis He4 : (4 * prec <= emax)%Z.

(** sine and cosine within [e], and the arc tangent of a point of the upper half plane within [e];
    the sign of a zero ordinate matters there: below the cut the angle is [- PI] *)
Definition atan_ok (e : R) : Prop :=
  (forall x : fl, is_finite x = true -> Rabs (B2R x) <= 4 -> trig_ok e x) /\
  (forall y x : fl, is_finite y = true -> is_finite x = true -> Bsign y = false -> B2R y <> 0 \/ B2R x <> 0 ->
    is_finite (fatan2 y x) = true /\ Rabs (B2R (fatan2 y x) - Ratan2 (B2R y) (B2R x)) <= e).
Lemma atan_pos e : atan_ok e -> 0 <= e.
Proof. intros [H _]. apply (trig_pos e (zero : fl)). apply H; [reflexivity| ]. cbn [B2R zero F_Num]. rewrite Rabs_R0. lra. Qed.

(** ** the norm of a short vector, with its sign *)
Lemma sq_sign (x : fl) : is_finite (mul x x) = true -> Bsign (mul x x) = false.
Proof.
  intros F. change (mul x x) with (Bmult mode_NE x x) in *. pose proof (Bmult_correct prec emax Hp He mode_NE x x) as C.
  destruct (Rlt_bool _ _) in C.
  - destruct C as (_ & _ & S). rewrite S; [destruct (Bsign x); reflexivity|destruct (Bmult mode_NE x x); (discriminate F || reflexivity)].
  - exfalso. destruct (Bmult mode_NE x x) as [s|s| |s m k Hx]; try discriminate F.
    + cbn in C. destruct (Bsign x); discriminate C.
    + cbn in C. destruct (Bsign x); discriminate C.
Qed.
Lemma sum_sign (x y : fl) : is_finite (add x y) = true -> Bsign x = false -> Bsign y = false -> Bsign (add x y) = false.
Proof.
  intros F Sx Sy. change (add x y) with (Bplus mode_NE x y) in *. destruct (plus_finite x y F) as (Fx & Fy & _).
  pose proof (Bplus_correct prec emax Hp He mode_NE x y Fx Fy) as C.
  assert (P : forall z : fl, Bsign z = false -> 0 <= B2R z).
  { intros z Hz. destruct z as [s|s| |s m k Hx]; cbn in Hz |- *; try lra. subst s. apply F2R_ge_0. cbn. lia. }
  pose proof (P x Sx) as Px. pose proof (P y Sy) as Py.
  destruct (Rlt_bool _ _) in C.
  - destruct C as (_ & _ & S). rewrite S. destruct (Rcompare_spec (B2R x + B2R y) 0); [lra|rewrite Sx, Sy; reflexivity|reflexivity].
  - exfalso. destruct C as [C _]. destruct (Bplus mode_NE x y) as [s|s| |s m k Hx]; try discriminate F; cbn in C; destruct (Bsign x); discriminate C.
Qed.
Lemma sign_nonneg (z : fl) : Bsign z = false -> 0 <= B2R z.
Proof. intros Hz. destruct z as [s|s| |s m k Hx]; cbn in Hz |- *; try lra. subst s. apply F2R_ge_0. cbn. lia. Qed.

Lemma norm3_abs (v : V3 fl) : (forall k, (k < 3)%nat -> is_finite (vfun v k) = true) -> nrm 3 (vR v) <= 11 / 10 ->
  is_finite (v3_norm2 v) = true /\ Bsign (v3_norm2 v) = false /\ Rabs (B2R (v3_norm2 v) - nrm 3 (vR v)) <= 48 / 10 * uro.
Proof.
  intros F L. pose proof (uro_small Hp11) as U. pose proof (uro_pos (prec := prec)) as P. pose proof (eta_sq Hp11 He4) as Es. pose proof (eta_tiny Hp11 He4) as Et.
  assert (T0 : 0 <= eta) by apply eta_pos.
  pose proof (F 0%nat ltac:(lia)) as Fx. pose proof (F 1%nat ltac:(lia)) as Fy. pose proof (F 2%nat ltac:(lia)) as Fz. clear F.
  assert (Ev : v3_norm2 v = fsqrt (add (add (mul (vfun v 0) (vfun v 0)) (mul (vfun v 1) (vfun v 1))) (mul (vfun v 2) (vfun v 2)))) by (destruct v as (x&y&z&[]); reflexivity).
  pose proof (nrm_sq 3 (vR v)) as HS. pose proof (nrm_pos 3 (vR v)) as H0. set (h := nrm 3 (vR v)) in *.
  assert (SE : sq_sum 3 (vR v) = B2R (vfun v 0) * B2R (vfun v 0) + B2R (vfun v 1) * B2R (vfun v 1) + B2R (vfun v 2) * B2R (vfun v 2)).
  { unfold sq_sum, vR. lazy [sumn add mul zero R_Num]. ring. }
  rewrite SE in HS. clear SE. rewrite Ev. clear Ev. clearbody h. set (x := vfun v 0) in *. set (y := vfun v 1) in *. set (z := vfun v 2) in *. clearbody x y z.
  assert (X2 : 0 <= B2R x * B2R x) by nra. assert (Y2 : 0 <= B2R y * B2R y) by nra. assert (Z2 : 0 <= B2R z * B2R z) by nra.
  assert (SB : h * h <= 121 / 100) by nra.
  destruct (mul_ok Hp11 He4 x x Fx Fx ltac:(rewrite Rabs_pos_eq; lra)) as [F1 E1]. destruct (mul_ok Hp11 He4 y y Fy Fy ltac:(rewrite Rabs_pos_eq; lra)) as [F2 E2].
  destruct (mul_ok Hp11 He4 z z Fz Fz ltac:(rewrite Rabs_pos_eq; lra)) as [F3 E3].
  rewrite (Rabs_pos_eq (B2R x * B2R x)) in E1 by lra. rewrite (Rabs_pos_eq (B2R y * B2R y)) in E2 by lra. rewrite (Rabs_pos_eq (B2R z * B2R z)) in E3 by lra.
  pose proof (sq_sign x F1) as S1. pose proof (sq_sign y F2) as S2. pose proof (sq_sign z F3) as S3.
  pose proof (sign_nonneg _ S1) as A0. pose proof (sign_nonneg _ S2) as B0. pose proof (sign_nonneg _ S3) as D0.
  set (A := mul x x) in *. set (B := mul y y) in *. set (D := mul z z) in *. apply Rabs_le_inv in E1. apply Rabs_le_inv in E2. apply Rabs_le_inv in E3.
  assert (UX : uro * (B2R x * B2R x) <= / 2048 * (B2R x * B2R x)) by (apply Rmult_le_compat_r; lra).
  assert (UY : uro * (B2R y * B2R y) <= / 2048 * (B2R y * B2R y)) by (apply Rmult_le_compat_r; lra).
  assert (UZ : uro * (B2R z * B2R z) <= / 2048 * (B2R z * B2R z)) by (apply Rmult_le_compat_r; lra).
  destruct (add_ok Hp11 He4 A B F1 F2 ltac:(rewrite Rabs_pos_eq; lra)) as [F4 E4]. rewrite (Rabs_pos_eq (B2R A + B2R B)) in E4 by lra.
  pose proof (sum_sign A B F4 S1 S2) as S4. pose proof (sign_nonneg _ S4) as G0. set (G := add A B) in *. apply Rabs_le_inv in E4.
  assert (UAB : uro * (B2R A + B2R B) <= / 2048 * (B2R A + B2R B)) by (apply Rmult_le_compat_r; lra).
  destruct (add_ok Hp11 He4 G D F4 F3 ltac:(rewrite Rabs_pos_eq; lra)) as [F5 E5]. rewrite (Rabs_pos_eq (B2R G + B2R D)) in E5 by lra.
  pose proof (sum_sign G D F5 S4 S3) as S5. pose proof (sign_nonneg _ S5) as C0. set (C := add G D) in *. apply Rabs_le_inv in E5.
  assert (FS : is_finite (fsqrt C) = true).
  { change (fsqrt C) with (Bsqrt mode_NE C). destruct (Bsqrt_correct prec emax Hp He mode_NE C) as (_ & Q & _). rewrite Q. clear Q. clearbody C.
    destruct C as [s|s| |s m k Hx]; try discriminate F5; [reflexivity| ]. cbn in S5. subst s. reflexivity. }
  split; [exact FS|split].
  { change (fsqrt C) with (Bsqrt mode_NE C) in *. destruct (Bsqrt_correct prec emax Hp He mode_NE C) as (_ & _ & Q). rewrite Q; [exact S5|destruct (Bsqrt mode_NE C); (discriminate FS || reflexivity)]. }
  destruct (sqrt_round C) as (e4 & L4 & V4). change (fsqrt C) with (Bsqrt mode_NE C). rewrite V4. clear V4. apply Rabs_le_inv in L4.
  assert (EC : Rabs (B2R C - h * h) <= 302 / 100 * uro * (h * h) + 32 / 10 * eta).
  { assert (UE : uro * eta <= / 2048 * eta) by (apply Rmult_le_compat_r; lra).
    assert (K1 : B2R A + B2R B <= (1 + / 2048) * (B2R x * B2R x + B2R y * B2R y) + 2 * eta) by lra.
    assert (K2 : B2R G + B2R D <= (1 + 2 / 2000) * (h * h) + 32 / 10 * eta) by lra.
    assert (K3 : uro * (B2R A + B2R B) <= uro * ((1 + / 2048) * (B2R x * B2R x + B2R y * B2R y) + 2 * eta)) by (apply Rmult_le_compat_l; lra).
    assert (K4 : uro * (B2R G + B2R D) <= uro * ((1 + 2 / 2000) * (h * h) + 32 / 10 * eta)) by (apply Rmult_le_compat_l; lra).
    assert (0 <= uro * (B2R x * B2R x)) by (apply Rmult_le_pos; lra). assert (0 <= uro * (B2R y * B2R y)) by (apply Rmult_le_pos; lra). assert (0 <= uro * (B2R z * B2R z)) by (apply Rmult_le_pos; lra).
    assert (UH : uro * (h * h) = uro * (B2R x * B2R x) + uro * (B2R y * B2R y) + uro * (B2R z * B2R z)) by (rewrite HS; ring).
    clear - E1 E2 E3 E4 E5 K3 K4 UE UH HS H H1 H2 T0. apply Rabs_le. lra. }
  pose proof (sqrt_sqrt (B2R C) C0) as QC. pose proof (sqrt_pos (B2R C)) as g0. set (g := sqrt (B2R C)) in *. rewrite <- QC in EC.
  clearbody g. clear - EC g0 H0 L P U Es Et T0 L4.
  assert (D : Rabs (g - h) <= 34 / 10 * uro).
  { destruct (Rle_lt_dec uro h) as [K|K].
    - assert (Q : Rabs (g - h) * h <= Rabs (g * g - h * h)).
      { replace (g * g - h * h) with ((g - h) * (g + h)) by ring. rewrite Rabs_mult, (Rabs_pos_eq (g + h)) by lra. apply Rmult_le_compat_l; [apply Rabs_pos|lra]. }
      apply Rmult_le_reg_r with h; [lra| ]. assert (uro * uro <= uro * h) by (apply Rmult_le_compat_l; lra).
      assert (uro * (h * h) <= uro * (11 / 10 * h)) by (apply Rmult_le_compat_l; [lra|apply Rmult_le_compat_r; lra]). lra.
    - apply Rabs_le_inv in EC. assert (h * h <= uro * uro) by (apply Rmult_le_compat; lra). assert (uro * (h * h) <= / 2048 * (uro * uro)) by (apply Rmult_le_compat; try lra; nra).
      assert (g <= 11 / 10 * uro) by nra. apply Rabs_le. lra. }
  apply Rabs_le_inv in D. assert (Eg : Rabs (g * e4) <= 112 / 100 * uro).
  { rewrite Rabs_mult, (Rabs_pos_eq g) by lra. apply Rmult_le_compat; [lra|apply Rabs_pos|lra|apply Rabs_le; lra]. }
  apply Rabs_le_inv in Eg. apply Rabs_le. lra.
Qed.

(** ** the angle *)
Lemma close_parts E (a : Quaternion fl) (u : V3 R) h : v3_dot u u = 1 -> 0 <= h <= PI -> close4 E a (polar u h) ->
  0 <= E /\ hyp (qR a 0 - cos h) (nrm 3 (vR (Quat.q a)) - sin h) <= E /\ nrm 3 (fun k => vR (Quat.q a) k - sin h * vfun u k) <= E /\ nrm 3 (vfun u) = 1.
Proof.
  intros Uu Hh [F C]. rewrite close4_nrm in C. assert (E0 : 0 <= E) by (eapply Rle_trans; [apply nrm_pos|exact C]).
  assert (S0 : 0 <= sin h) by (apply sin_ge_0; lra).
  assert (NU : nrm 3 (vfun u) = 1).
  { assert (Q : sq_sum 3 (vfun u) = 1) by (destruct u as (x&y&z&[]); rewrite <- Uu; unfold sq_sum; lazy [sumn add mul zero R_Num vfun List.nth alist v3_dot ix0 ix1 ix2 ahd atl fst snd]; ring).
    unfold nrm. rewrite Q. apply sqrt_1. }
  set (d := fun k => qR a k - rq (polar u h) k) in *.
  assert (Dv : forall k, (k < 3)%nat -> d (S k) = vR (Quat.q a) k - sin h * vfun u k).
  { intros k Hk. unfold d. destruct a as [x0 (x1&x2&x3&[]) f], u as (u0&u1&u2&[]). destruct k as [ |[ |[ |k]]]; [ | | |lia].
    - change (B2R x1 - u0 * sin h = B2R x1 - sin h * u0). ring.
    - change (B2R x2 - u1 * sin h = B2R x2 - sin h * u1). ring.
    - change (B2R x3 - u2 * sin h = B2R x3 - sin h * u2). ring. }
  assert (N3 : nrm 3 (fun k => vR (Quat.q a) k - sin h * vfun u k) = nrm 3 (fun k => d (S k))) by (apply nrm_ext; intros k Hk; rewrite Dv by exact Hk; reflexivity).
  split; [exact E0|split; [ |split; [rewrite N3; eapply Rle_trans; [apply nrm_tail|exact C]|exact NU]]].
  pose proof (nrm_diff 3 (vR (Quat.q a)) (fun k => sin h * vfun u k)) as ND. rewrite nrm_scal, NU, (Rabs_pos_eq (sin h)), Rmult_1_r in ND by exact S0. rewrite N3 in ND.
  eapply Rle_trans; [ |exact C]. unfold hyp, nrm. apply sqrt_le_1_alt. fold (nrm 3 (vR (Quat.q a))).
  pose proof (nrm_sq 3 (fun k => d (S k))) as Q. set (n3 := nrm 3 (fun k => d (S k))) in *. pose proof (nrm_pos 3 (fun k => d (S k))) as n0. fold n3 in n0.
  set (g := nrm 3 (vR (Quat.q a)) - sin h) in *. assert (G2 : g * g <= n3 * n3).
  { apply Rabs_le_inv in ND. nra. }
  assert (T : sq_sum 4 d = d 0%nat * d 0%nat + sq_sum 3 (fun k => d (S k))) by (unfold sq_sum; lazy [sumn add zero R_Num]; ring).
  rewrite T, <- Q. assert (D0 : d 0%nat = qR a 0 - cos h) by reflexivity. rewrite <- D0. nra.
Qed.

Lemma angle_core e E (a : Quaternion fl) (u : V3 R) h : v3_dot u u = 1 -> 0 <= h <= PI -> close4 E a (polar u h) -> E <= / 25 -> atan_ok e ->
  is_finite (fatan2 (v3_norm2 (Quat.q a)) (Quat.q0 a)) = true /\ Rabs (B2R (fatan2 (v3_norm2 (Quat.q a)) (Quat.q0 a)) - h) <= 11 / 10 * E + e + 53 / 10 * uro.
Proof.
  intros Uu Hh C LE [_ A]. destruct (close_parts E a u h Uu Hh C) as (E0 & H & _ & _). destruct C as [F _].
  pose proof (uro_small Hp11) as U. pose proof (uro_pos (prec := prec)) as P.
  set (n := nrm 3 (vR (Quat.q a))) in *. destruct (hyp_comp (qR a 0 - cos h) (n - sin h)) as [_ Hn].
  assert (SB : 0 <= sin h <= 1) by (split; [apply sin_ge_0; lra|apply SIN_bound]). assert (Ln : n <= 11 / 10) by (apply Rabs_le_inv in Hn; lra).
  assert (Fv : forall k, (k < 3)%nat -> is_finite (vfun (Quat.q a) k) = true).
  { intros k Hk. pose proof (F (S k) ltac:(lia)) as G. destruct a as [x0 (x1&x2&x3&[]) f]. destruct k as [ |[ |[ |k]]]; [exact G..|lia]. }
  destruct (norm3_abs (Quat.q a) Fv Ln) as (Fn & Sn & Vn). fold n in Vn. set (y := v3_norm2 (Quat.q a)) in *. clearbody y.
  pose proof (sign_nonneg y Sn) as Py. pose proof (F 0%nat ltac:(lia)) as Fx. change (is_finite (Quat.q0 a) = true) in Fx. set (x := Quat.q0 a) in *. change (qR a 0) with (B2R x) in H.
  assert (Hy : hyp (B2R x - cos h) (B2R y - sin h) <= E + 48 / 10 * uro).
  { replace (B2R x - cos h) with ((B2R x - cos h) + 0) by ring. replace (B2R y - sin h) with ((n - sin h) + (B2R y - n)) by ring.
    eapply Rle_trans; [apply hyp_plus| ]. apply Rplus_le_compat; [exact H| ]. unfold hyp. replace (0 * 0 + (B2R y - n) * (B2R y - n)) with (Rsqr (B2R y - n)) by (unfold Rsqr; ring). rewrite sqrt_Rsqr_abs. exact Vn. }
  destruct (angle_near (B2R x) (B2R y) h _ Hh Py Hy ltac:(lra)) as [N K]. destruct (A y x Fn Fx Sn ltac:(destruct N; auto)) as [Fa Va].
  split; [exact Fa| ]. replace (B2R (fatan2 y x) - h) with ((B2R (fatan2 y x) - Ratan2 (B2R y) (B2R x)) + (Ratan2 (B2R y) (B2R x) - h)) by ring.
  eapply Rle_trans; [apply Rabs_triang|lra].
Qed.

Lemma pi_lt4 : PI < 4.
Proof. pose proof (PI_ineq 1) as [_ Q]. unfold tg_alt, PI_tg in Q. cbn in Q. lra. Qed.

Lemma c102_angle : forall e E (a : Quaternion fl) (u : V3 R) h, v3_dot u u = 1 -> 0 <= h <= PI -> close4 E a (polar u h) -> E <= / 25 -> atan_ok e -> e <= / 25 ->
  is_finite (q_get_angle a) = true /\ Rabs (B2R (q_get_angle a) - 2 * h) <= 22 / 10 * E + 2 * e + 18 * uro.
Proof.
  intros e E a u h Uu Hh C LE A Le. pose proof (uro_small Hp11) as U. pose proof (uro_pos (prec := prec)) as P. pose proof (eta_tiny Hp11 He4) as Et. assert (T0 : 0 <= eta) by apply eta_pos.
  destruct (close_parts E a u h Uu Hh C) as (E0 & _). destruct (angle_core e E a u h Uu Hh C LE A) as [F V]. apply Rabs_le_inv in V.
  unfold q_get_angle. cbv zeta. destruct (two_val (emax := emax) Hp11) as [F2 V2]. set (t := fatan2 (v3_norm2 (Quat.q a)) (Quat.q0 a)) in *. clearbody t. pose proof pi_32 as P3.
  assert (TB : Rabs (B2R t) <= 33 / 10) by (apply Rabs_le; lra).
  assert (MB : Rabs (B2R (add one one : fl) * B2R t) <= 66 / 10) by (rewrite V2, Rabs_mult, (Rabs_pos_eq 2) by lra; lra).
  destruct (mul_ok Hp11 He4 (add one one) t F2 F ltac:(lra)) as [F3 E3]. split; [exact F3| ].
  assert (uro * Rabs (B2R (add one one : fl) * B2R t) <= uro * (66 / 10)) by (apply Rmult_le_compat_l; lra).
  rewrite V2 in E3, H. apply Rabs_le_inv in E3. apply Rabs_le. lra.
Qed.

(** ** the axis *)
Lemma polar_nrm (u : V3 R) h : v3_dot u u = 1 -> nrm 4 (rq (polar u h)) = 1.
Proof.
  intros Uu. assert (Q : sq_sum 4 (rq (polar u h)) = 1).
  { destruct u as (x&y&z&[]). assert (V : x * x + y * y + z * z = 1) by exact Uu. pose proof (sin2_cos2 h) as E. unfold Rsqr in E. rewrite sq4.
    change (cos h * cos h + x * sin h * (x * sin h) + y * sin h * (y * sin h) + z * sin h * (z * sin h) = 1).
    transitivity (cos h * cos h + sin h * sin h * (x * x + y * y + z * z)); [ring|rewrite V; lra]. }
  unfold nrm. rewrite Q. apply sqrt_1.
Qed.

Lemma normalize_close E (a : Quaternion fl) (A : Quaternion R) : nrm 4 (rq A) = 1 -> close4 E a A -> E <= / 20 ->
  exists b, q_normalize a = Some b /\ close4 (2 * E + 51 / 10 * uro) b A.
Proof.
  intros NA [F C] LE. rewrite close4_nrm in C. assert (E0 : 0 <= E) by (eapply Rle_trans; [apply nrm_pos|exact C]).
  pose proof (uro_small Hp11) as U. pose proof (uro_pos (prec := prec)) as P. pose proof (eta_tiny Hp11 He4) as Et. assert (T0 : 0 <= eta) by apply eta_pos.
  destruct (normalized a) eqn:Na.
  { exists a. split; [unfold q_normalize; rewrite Na; reflexivity|split; [exact F|rewrite close4_nrm; lra]]. }
  pose proof (nrm_diff 4 (qR a) (rq A)) as D. rewrite NA in D. assert (D' := Rle_trans _ _ _ D C).
  destruct (near_norm2 Hp11 He4 E a (conj F D') ltac:(lra)) as [FN ZN].
  assert (EN : exists b, q_normalize a = Some b) by (unfold q_normalize; rewrite Na, ZN; cbn [negb]; eexists; reflexivity).
  destruct EN as [b Eb]. exists b. split; [exact Eb| ]. destruct (c87_normalize Hp11 He4 a b Na FN Eb) as [_ K]. cbv zeta in K.
  change (sqrt (sq_sum 4 (fun k => B2R (qcomp k a)))) with (nrm 4 (qR a)) in K. set (N := nrm 4 (qR a)) in *. apply Rabs_le_inv in D'.
  split; [intros k Hk; apply (K k Hk)| ]. rewrite close4_nrm.
  rewrite (nrm_ext 4 _ (fun k => (qR b k - qR a k / N) + ((/ N - 1) * qR a k + (qR a k - rq A k)))) by (intros k _; field; lra).
  eapply Rle_trans; [apply nrm_plus| ]. eapply Rle_trans; [apply Rplus_le_compat_l, nrm_plus| ]. rewrite nrm_scal. fold N.
  assert (S2 : Rabs (/ N - 1) * N <= E).
  { rewrite <- (Rabs_pos_eq N) at 2 by lra. rewrite <- Rabs_mult. replace ((/ N - 1) * N) with (1 - N) by (field; lra). apply Rabs_le. lra. }
  assert (S1 : nrm 4 (fun k => qR b k - qR a k / N) <= 501 / 100 * uro).
  { eapply Rle_trans; [apply (nrm_mono 4 _ (fun k => 5 * uro * Rabs (/ N * qR a k) + eta))| ].
    - intros k Hk. destruct (K k Hk) as [_ K2]. replace (/ N * qR a k) with (B2R (qcomp k a) / N) by (unfold qR, Rdiv; ring). exact K2.
    - eapply Rle_trans; [apply (nrm_plus 4 (fun k => 5 * uro * Rabs (/ N * qR a k)) (fun _ => eta))| ]. rewrite nrm_scal, (Rabs_pos_eq (5 * uro)) by lra.
      assert (Z1 : nrm 4 (fun k => Rabs (/ N * qR a k)) <= 1).
      { assert (Y : nrm 4 (fun k => Rabs (/ N * qR a k)) = nrm 4 (fun k => / N * qR a k)).
        { unfold nrm. f_equal. unfold sq_sum. apply sumn_ext. intros k _. rewrite <- Rabs_mult. apply Rabs_pos_eq, Rle_0_sqr. }
        rewrite Y, nrm_scal. fold N. rewrite Rabs_pos_eq by (left; apply Rinv_0_lt_compat; lra). rewrite Rinv_l; lra. }
      assert (Z2 : nrm 4 (fun _ => eta) <= 2 * eta) by (apply nrm_le; [lra| ]; unfold sq_sum; lazy [sumn add mul zero R_Num]; lra).
      assert (5 * uro * nrm 4 (fun k => Rabs (/ N * qR a k)) <= 5 * uro * 1) by (apply Rmult_le_compat_l; lra). lra. }
  lra.
Qed.

(** finite and within [t] of the real vector *)
Definition closev (t : R) (v : V3 fl) (u : V3 R) : Prop :=
  (forall k, (k < 3)%nat -> is_finite (vfun v k) = true) /\ sqrt (sumn 3 (fun k => (B2R (vfun v k) - vfun u k) ^ 2)) <= t.
Lemma closev_nrm (v : V3 fl) (u : V3 R) : sqrt (sumn 3 (fun k => (B2R (vfun v k) - vfun u k) ^ 2)) = nrm 3 (fun k => vR v k - vfun u k).
Proof. unfold nrm, sq_sum, vR. f_equal. apply sumn_ext. intros k Hk. ring. Qed.

Lemma c102_axis : forall e E (a : Quaternion fl) (u : V3 R) h, v3_dot u u = 1 -> 0 <= h <= PI -> close4 E a (polar u h) -> atan_ok e -> 250 * (E + e + 5 * uro) <= sin h ->
  exists ax, q_get_axis a = Some ax /\ closev ((5 * E + 3 * e + 25 * uro) / sin h) ax u.
Proof.
  intros e E a u h Uu Hh C A L. pose proof (uro_small Hp11) as U. pose proof (uro_pos (prec := prec)) as P. pose proof (eta_tiny Hp11 He4) as Et. assert (T0 : 0 <= eta) by apply eta_pos.
  pose proof (atan_pos e A) as e0. assert (E0 : 0 <= E) by apply (close_parts E a u h Uu Hh C). pose proof (SIN_bound h) as [_ S1].
  destruct (normalize_close E a (polar u h) (polar_nrm u h Uu) C ltac:(lra)) as (b & Eb & Cb). unfold q_get_axis. rewrite Eb. cbv zeta. clear Eb C a.
  set (E' := 2 * E + 51 / 10 * uro) in *.
  destruct (c102_angle e E' b u h Uu Hh Cb ltac:(unfold E'; lra) A ltac:(lra)) as [Fg Vg].
  destruct (fofZ_int (prec := prec) (emax := emax) 2 ltac:(change (Z.abs 2) with (2 ^ 1)%Z; apply Z.pow_le_mono_r; lia)) as [F2 V2]. change (is_finite (lit_2 : fl) = true) in F2. change (B2R (lit_2 : fl) = 2) in V2.
  destruct (half_div Hp11 He4 (q_get_angle b) lit_2 Fg F2 V2) as [Fx Vx]. set (x := div (q_get_angle b) lit_2) in *. apply Rabs_le_inv in Vg. apply Rabs_le_inv in Vx. pose proof pi_32 as P3.
  assert (Dx : Rabs (B2R x - h) <= 22 / 10 * E + e + 147 / 10 * uro) by (apply Rabs_le; unfold E' in Vg; lra). clear Vx Vg.
  assert (Bx : Rabs (B2R x) <= 4) by (apply Rabs_le_inv in Dx; apply Rabs_le; lra).
  destruct (proj1 A x Fx Bx) as [[Fs Vs] _]. pose proof (sin_lip (B2R x) h) as SL. set (s := fsin x) in *.
  set (S := sin h) in *. set (dl := 22 / 10 * E + 2 * e + 147 / 10 * uro).
  assert (Ds : Rabs (B2R s - S) <= dl).
  { replace (B2R s - S) with ((B2R s - sin (B2R x)) + (sin (B2R x) - S)) by ring. eapply Rle_trans; [apply Rabs_triang|unfold dl; lra]. }
  assert (Ld : dl <= 3 / 100 * S) by (unfold dl; lra). assert (Sp : 0 < S) by lra. pose proof (Rabs_le_inv _ _ Ds) as Ds'.
  assert (Hs : 97 / 100 * S <= B2R s) by lra. destruct epsilon_val as [Fe Ve].
  assert (EP : ltb (epsilon : fl) (abs s) = true).
  { change (Bltb (epsilon : fl) (Babs s) = true). rewrite Bltb_correct by (rewrite ?is_finite_Babs; assumption). rewrite B2R_Babs, Ve, Rabs_pos_eq by lra. apply Rlt_bool_true.
    assert (bpow radix2 (1 - prec) = 2 * uro) by (unfold FloatFacts.uro; lra). lra. }
  rewrite EP. exists (v3_div (Quat.q b) s). split; [reflexivity| ].
  destruct (close_parts E' b u h Uu Hh Cb) as (_ & _ & Cv & Nu). fold S in Cv. destruct Cb as [Fb _].
  set (v := vR (Quat.q b)) in *.
  assert (Nv : nrm 3 v <= 1021 / 1000 * S).
  { pose proof (nrm_diff 3 v (fun k => S * vfun u k)) as ND. rewrite nrm_scal, Nu, Rmult_1_r, (Rabs_pos_eq S) in ND by lra. apply Rabs_le_inv in ND. assert (E' <= 21 / 1000 * S) by (unfold E'; lra). lra. }
  assert (Fv : forall k, (k < 3)%nat -> is_finite (vfun (Quat.q b) k) = true).
  { intros k Hk. pose proof (Fb (Datatypes.S k) ltac:(lia)) as G. destruct b as [x0 (x1&x2&x3&[]) f]. destruct k as [ |[ |[ |k]]]; [exact G..|lia]. }
  assert (Vk : forall k, (k < 3)%nat -> vfun (v3_div (Quat.q b) s) k = Bdiv mode_NE (vfun (Quat.q b) k) s).
  { intros k Hk. destruct b as [x0 (x1&x2&x3&[]) f]. destruct k as [ |[ |[ |k]]]; [reflexivity..|lia]. }
  set (r := B2R s) in *. assert (r0 : 0 < r) by lra.
  assert (Nr : nrm 3 (fun k => / r * v k) <= 106 / 100).
  { rewrite nrm_scal, Rabs_pos_eq by (left; apply Rinv_0_lt_compat, r0). apply Rmult_le_reg_l with r; [exact r0| ]. rewrite <- Rmult_assoc, Rinv_r, Rmult_1_l by lra. lra. }
  assert (K : forall k, (k < 3)%nat -> is_finite (vfun (v3_div (Quat.q b) s) k) = true /\ Rabs (B2R (vfun (v3_div (Quat.q b) s) k) - / r * v k) <= uro * Rabs (/ r * v k) + eta).
  { intros k Hk. rewrite (Vk k Hk). pose proof (comp_nrm 3 (fun k => / r * v k) k Hk) as B. cbv beta in B.
    assert (Q : B2R (vfun (Quat.q b) k) / B2R s = / r * v k) by (unfold v, vR, r, Rdiv; ring).
    destruct (div_error (vfun (Quat.q b) k) s (Fv k Hk) ltac:(fold r; lra) ltac:(rewrite Q; lra)) as (Fd & e1 & h1 & L1 & L2 & V). split; [exact Fd| ]. rewrite V, Q.
    replace (/ r * v k * (1 + e1) + h1 - / r * v k) with (e1 * (/ r * v k) + h1) by ring. eapply Rle_trans; [apply Rabs_triang| ]. rewrite Rabs_mult.
    apply Rplus_le_compat; [apply Rmult_le_compat_r; [apply Rabs_pos|exact L1]|exact L2]. }
  split; [intros k Hk; apply (K k Hk)| ]. rewrite closev_nrm.
  rewrite (nrm_ext 3 _ (fun k => (vR (v3_div (Quat.q b) s) k - / r * v k) + / r * ((v k - S * vfun u k) + (S - r) * vfun u k))) by (intros k _; field; lra).
  eapply Rle_trans; [apply nrm_plus| ].
  assert (W1 : nrm 3 (fun k => vR (v3_div (Quat.q b) s) k - / r * v k) <= 107 / 100 * uro).
  { eapply Rle_trans; [apply (nrm_mono 3 _ (fun k => uro * Rabs (/ r * v k) + eta)); intros k Hk; apply (K k Hk)| ].
    eapply Rle_trans; [apply (nrm_plus 3 (fun k => uro * Rabs (/ r * v k)) (fun _ => eta))| ]. rewrite nrm_scal, (Rabs_pos_eq uro) by lra.
    assert (Y : nrm 3 (fun k => Rabs (/ r * v k)) = nrm 3 (fun k => / r * v k)).
    { unfold nrm. f_equal. unfold sq_sum. apply sumn_ext. intros k _. rewrite <- Rabs_mult. apply Rabs_pos_eq, Rle_0_sqr. }
    rewrite Y. assert (Z2 : nrm 3 (fun _ => eta) <= 2 * eta) by (apply nrm_le; [lra| ]; unfold sq_sum; lazy [sumn add mul zero R_Num]; nra).
    assert (uro * nrm 3 (fun k => / r * v k) <= uro * (106 / 100)) by (apply Rmult_le_compat_l; lra). lra. }
  assert (W2 : nrm 3 (fun k => / r * ((v k - S * vfun u k) + (S - r) * vfun u k)) <= / r * (E' + dl)).
  { rewrite nrm_scal, Rabs_pos_eq by (left; apply Rinv_0_lt_compat, r0). apply Rmult_le_compat_l; [left; apply Rinv_0_lt_compat, r0| ].
    eapply Rle_trans; [apply (nrm_plus 3 (fun k => v k - S * vfun u k) (fun k => (S - r) * vfun u k))| ]. apply Rplus_le_compat; [exact Cv| ]. rewrite nrm_scal, Nu, Rmult_1_r, Rabs_minus_sym. exact Ds. }
  assert (W3 : / r * (E' + dl) <= 1031 / 1000 * ((E' + dl) / S)).
  { assert (I : / r <= 1031 / 1000 * / S).
    { replace (1031 / 1000 * / S) with (/ (S / (1031 / 1000))) by (field; lra). apply Rinv_le_contravar; [apply Rdiv_lt_0_compat; lra| ]. apply Rle_trans with (97 / 100 * S); [ |exact Hs].
      unfold Rdiv. lra. }
    unfold Rdiv. rewrite (Rmult_comm (E' + dl) (/ S)), <- Rmult_assoc. apply Rmult_le_compat_r; [unfold E', dl; lra|exact I]. }
  assert (W4 : uro <= uro / S).
  { apply Rmult_le_reg_r with S; [exact Sp| ]. unfold Rdiv. rewrite Rmult_assoc, Rinv_l, Rmult_1_r by lra. assert (uro * S <= uro * 1) by (apply Rmult_le_compat_l; lra). lra. }
  apply Rle_trans with (107 / 100 * (uro / S) + 1031 / 1000 * ((E' + dl) / S)); [lra| ].
  replace (107 / 100 * (uro / S) + 1031 / 1000 * ((E' + dl) / S)) with ((107 / 100 * uro + 1031 / 1000 * (E' + dl)) / S) by (field; lra).
  apply Rmult_le_compat_r; [left; apply Rinv_0_lt_compat, Sp|unfold E', dl; lra].
Qed.

(** ** the rotation of the extracted angle and axis *)
Lemma c102_round_trip : forall e E (a : Quaternion fl) (u : V3 R) h, v3_dot u u = 1 -> 0 <= h <= PI -> close4 E a (polar u h) -> atan_ok e -> 250 * (E + e + 5 * uro) <= sin h ->
  exists ax q, q_axis_angle a = (Some ax, q_get_angle a) /\ q_rotation (q_get_angle a) ax = Ok q /\ normalized q = true /\ close4 (13 * E + 10 * e + 75 * uro) q (polar u h).
Proof.
  intros e E a u h Uu Hh C A L. pose proof (uro_small Hp11) as U. pose proof (uro_pos (prec := prec)) as P. pose proof (eta_tiny Hp11 He4) as Et. assert (T0 : 0 <= eta) by apply eta_pos.
  pose proof (atan_pos e A) as e0. destruct (close_parts E a u h Uu Hh C) as (E0 & _ & _ & Nu). pose proof (SIN_bound h) as [_ S1].
  destruct (c102_axis e E a u h Uu Hh C A L) as (ax & Ex & Fx & Vx). rewrite closev_nrm in Vx. exists ax.
  destruct (c102_angle e E a u h Uu Hh C ltac:(lra) A ltac:(lra)) as [Ft Vt]. set (th := q_get_angle a) in *. set (S := sin h) in *. assert (Sp : 0 < S) by lra.
  set (t := (5 * E + 3 * e + 25 * uro) / S) in *.
  assert (TS : S * t = 5 * E + 3 * e + 25 * uro) by (unfold t; field; lra). assert (T1 : t <= / 40) by (apply Rmult_le_reg_l with S; [exact Sp|lra]).
  assert (t0 : 0 <= t) by (eapply Rle_trans; [apply nrm_pos|exact Vx]).
  pose proof (nrm_diff 3 (vR ax) (vfun u)) as ND. rewrite Nu in ND. assert (ND' := Rle_trans _ _ _ ND Vx). apply Rabs_le_inv in ND'. rewrite <- len3_nrm in ND'.
  assert (LL : 9 / 10 <= len3 ax * len3 ax <= 2) by nra.
  destruct (norm3_ok Hp11 He4 ax Fx ltac:(lra) ltac:(lra)) as [Nx _]. destruct (two_val (emax := emax) Hp11) as [F2 V2].
  destruct (half_div Hp11 He4 th (add one one) Ft F2 V2) as [Fh Vh]. apply Rabs_le_inv in Vh. pose proof (Rabs_le_inv _ _ Vt) as Vt'. pose proof pi_32 as P3.
  assert (Tr : trig_ok e (div th (add one one))) by (apply (proj1 A); [exact Fh|apply Rabs_le; lra]).
  destruct (rotation_polar Hp11 He4 e th ax Ft Nx Tr ltac:(lra)) as (q & Eq & Nq & DU & [Fq Cq]). exists q.
  split; [unfold q_axis_angle; rewrite Ex; reflexivity|split; [exact Eq|split; [exact Nq|split; [exact Fq| ]]]]. rewrite close4_nrm in Cq |- *.
  change (q_new (cos (B2R th / 2)) (v3_scale (dir3 ax) (sin (B2R th / 2)))) with (polar (dir3 ax) (B2R th / 2)) in Cq. set (g := B2R th / 2) in *.
  assert (Dg : Rabs (g - h) <= 11 / 10 * E + e + 9 * uro) by (unfold g; apply Rabs_le; lra).
  set (D := fun k => rq (polar (dir3 ax) g) k - rq (polar u h) k).
  rewrite (nrm_ext 4 _ (fun k => (qR q k - rq (polar (dir3 ax) g) k) + D k)) by (intros k _; unfold D; ring). eapply Rle_trans; [apply nrm_plus| ].
  pose proof (nrm4_split D) as SD. pose proof (cos_lip g h) as CL. pose proof (sin_lip g h) as SL. change (Rabs (cos g - cos h)) with (Rabs (D 0%nat)) in CL.
  assert (Dk : forall k, (k < 3)%nat -> D (Datatypes.S k) = (sin g - S) * vfun (dir3 ax) k + S * (vfun (dir3 ax) k - vfun u k)).
  { intros k Hk. unfold D, S. destruct u as (u0&u1&u2&[]). generalize (dir3 ax). intros (d0&d1&d2&[]). destruct k as [ |[ |[ |k]]]; [ | | |lia].
    - change (d0 * sin g - u0 * sin h = (sin g - sin h) * d0 + sin h * (d0 - u0)). ring.
    - change (d1 * sin g - u1 * sin h = (sin g - sin h) * d1 + sin h * (d1 - u1)). ring.
    - change (d2 * sin g - u2 * sin h = (sin g - sin h) * d2 + sin h * (d2 - u2)). ring. }
  assert (Lp : 0 < len3 ax) by lra. destruct (dir_unit ax Lp) as [_ DQ]. assert (Nd : nrm 3 (vfun (dir3 ax)) = 1) by (unfold nrm; rewrite DQ; apply sqrt_1).
  assert (Du : nrm 3 (fun k => vfun (dir3 ax) k - vfun u k) <= 2 * t).
  { assert (Dx : forall k, (k < 3)%nat -> vR ax k = len3 ax * vfun (dir3 ax) k).
    { intros k Hk. unfold dir3. set (l := len3 ax) in *. clearbody l. destruct ax as (a0&a1&a2&[]). destruct k as [ |[ |[ |k]]]; [ | | |lia].
      - change (B2R a0 = l * (B2R a0 / l)). field. lra.
      - change (B2R a1 = l * (B2R a1 / l)). field. lra.
      - change (B2R a2 = l * (B2R a2 / l)). field. lra. }
    rewrite (nrm_ext 3 _ (fun k => (1 - len3 ax) * vfun (dir3 ax) k + (vR ax k - vfun u k))) by (intros k Hk; rewrite (Dx k Hk); ring).
    eapply Rle_trans; [apply (nrm_plus 3 (fun k => (1 - len3 ax) * vfun (dir3 ax) k) (fun k => vR ax k - vfun u k))| ]. rewrite nrm_scal, Nd, Rmult_1_r.
    assert (Rabs (1 - len3 ax) <= t) by (apply Rabs_le; lra). lra. }
  assert (D3 : nrm 3 (fun k => D (Datatypes.S k)) <= Rabs (sin g - S) + S * (2 * t)).
  { rewrite (nrm_ext 3 _ (fun k => (sin g - S) * vfun (dir3 ax) k + S * (vfun (dir3 ax) k - vfun u k))) by (intros k Hk; apply Dk, Hk).
    eapply Rle_trans; [apply (nrm_plus 3 (fun k => (sin g - S) * vfun (dir3 ax) k) (fun k => S * (vfun (dir3 ax) k - vfun u k)))| ]. rewrite !nrm_scal, Nd, Rmult_1_r, (Rabs_pos_eq S) by lra.
    apply Rplus_le_compat_l, Rmult_le_compat_l; [lra|exact Du]. }
  fold S in SL. replace (S * (2 * t)) with (2 * (S * t)) in D3 by ring. rewrite TS in D3. lra.
Qed.
End F.

(** ** doubles *)
#[local] Existing Instance ProofsFloatAngles.prec53.
#[local] Existing Instance ProofsFloatAngles.emax1024.
#[local] Notation f64 := (binary_float 53 1024).
#[local] Notation u53 := (FloatFacts.uro (prec := 53)).

(** [2^-600], whose square is below the smallest positive double *)
Definition p600 : f64 := @B754_finite 53 1024 false 4503599627370496 (-652) eq_refl.
Definition plus0 : f64 := B754_zero false.
Definition small_turn : Quaternion f64 := q_new one [| p600; plus0; plus0 |].

(** a quaternion of a small turn about the first axis has no axis, and its angle is zero *)
Lemma c102_small_refuted : forall O : FOracle f64, fatan2 plus0 (one : f64) = plus0 -> fsin plus0 = plus0 ->
  exists a : Quaternion f64, close4 (/ 10 ^ 100) a (polar [| 1; 0; 0 |] (/ 2 ^ 600)) /\ 0 < B2R (qcomp 1 a) /\ q_axis_angle a = (None, plus0).
Proof.
  intros O At Si. exists small_turn.
  assert (V6 : B2R p600 = / 2 ^ 600).
  { unfold p600, B2R, F2R. cbn [cond_Zopp Defs.Fnum Defs.Fexp]. change (IZR 4503599627370496) with (IZR (2 ^ 52)).
    change (IZR (2 ^ 52)) with (bpow radix2 52). rewrite <- bpow_plus. change (52 + -652)%Z with (- (600))%Z. rewrite bpow_opp. f_equal.
    change (bpow radix2 600) with (IZR (2 ^ 600)). rewrite (pow_IZR 2 600). reflexivity. }
  assert (N0 : v3_norm2 ([| p600; plus0; plus0 |] : V3 f64) = plus0) by (apply B2SF_inj; vm_compute; reflexivity).
  assert (NQ : q_normalize small_turn = Some (mkQ one [| p600; plus0; plus0 |] true)).
  { assert (Z : nearly_zero (q_norm2 small_turn) = false) by (vm_compute; reflexivity). unfold q_normalize. change (normalized small_turn) with false. cbv iota. rewrite Z. cbn [negb].
    assert (D0 : div (one : f64) (q_norm2 small_turn) = one) by (apply B2SF_inj; vm_compute; reflexivity).
    assert (D1 : div p600 (q_norm2 small_turn) = p600) by (apply B2SF_inj; vm_compute; reflexivity).
    assert (D2 : div plus0 (q_norm2 small_turn) = plus0) by (apply B2SF_inj; vm_compute; reflexivity).
    set (n := q_norm2 small_turn) in *. clearbody n.
    change (Some (mkQ (div one n) [| div p600 n; div plus0 n; div plus0 n |] true) = Some (mkQ one [| p600; plus0; plus0 |] true)). rewrite D0, D1, D2. reflexivity. }
  assert (T0 : mul (add one one : f64) plus0 = plus0) by (apply B2SF_inj; vm_compute; reflexivity).
  assert (An : forall f, q_get_angle (mkQ one ([| p600; plus0; plus0 |] : V3 f64) f) = plus0).
  { intros f. unfold q_get_angle. cbv zeta. cbn [Quat.q Quat.q0]. rewrite N0, At. exact T0. }
  split; [ |split].
  - split; [intros k Hk; destruct k as [ |[ |[ |[ |k]]]]; [reflexivity..|lia]| ]. rewrite close4_nrm. rewrite <- V6.
    assert (Bn : 0 <= B2R p600 <= / 10 ^ 101).
    { rewrite V6. split; [left; apply Rinv_0_lt_compat, pow_lt; lra|apply Rinv_le_contravar; [apply pow_lt; lra| ]]. rewrite !pow_IZR. apply IZR_le. vm_compute. discriminate. }
    assert (Tn : / 10 ^ 101 <= / 1000) by (apply Rinv_le_contravar; [lra| ]; replace 1000 with (10 ^ 3) by ring; apply Rle_pow; [lra|lia]).
    destruct (small_trig (B2R p600) ltac:(lra)) as [Kc Ks]. set (d := B2R p600) in *. assert (d2 : d * d <= / 1000 * d) by (apply Rmult_le_compat_r; lra).
    eapply Rle_trans; [apply nrm4_split| ].
    assert (X0 : Rabs (qR small_turn 0 - rq (polar [| 1; 0; 0 |] d) 0) <= d).
    { change (Rabs (B2R (Bone : f64) - cos d) <= d). rewrite Bone_correct. apply Rabs_le. lra. }
    assert (X1 : nrm 3 (fun i => qR small_turn (S i) - rq (polar [| 1; 0; 0 |] d) (S i)) <= d).
    { apply nrm_le; [lra| ]. unfold sq_sum. lazy [sumn add mul zero R_Num].
      change (0 + (d - 1 * sin d) * (d - 1 * sin d) + (0 - 0 * sin d) * (0 - 0 * sin d) + (0 - 0 * sin d) * (0 - 0 * sin d) <= d * d).
      apply Rabs_le_inv in Ks. assert (d * (d * d / 2) <= d * (/ 1000)) by (apply Rmult_le_compat_l; lra). assert ((d - sin d) * (d - sin d) <= d * d) by nra. lra. }
    cbv beta. assert (Q : / 10 ^ 101 = / 10 ^ 100 / 10) by (replace (10 ^ 101) with (10 ^ 100 * 10) by ring; field; apply pow_nonzero; lra). assert (0 < / 10 ^ 100) by (apply Rinv_0_lt_compat, pow_lt; lra). lra.
  - change (0 < B2R p600). rewrite V6. apply Rinv_0_lt_compat, pow_lt. lra.
  - unfold q_axis_angle. f_equal; [ |exact (An false)]. unfold q_get_axis. rewrite NQ. cbv zeta. rewrite An.
    assert (H0 : div plus0 (lit_2 : f64) = plus0) by (apply B2SF_inj; vm_compute; reflexivity). rewrite H0, Si. reflexivity.
Qed.

(** ** cases *)
Lemma crO_atan : atan_ok (O := crO) (2 * u53).
Proof.
  pose proof (uro_pos (prec := 53)) as P. pose proof PI_RGT_0 as P0. pose proof pi_lt4 as P5. split.
  - intros x _ _. destruct (crO_trig x) as [[A B] [C D]]. split; split; [exact A|eapply Rle_trans; [exact B|lra]|exact C|eapply Rle_trans; [exact D|lra]].
  - intros y x Fy Fx _ N. change (fatan2 y x) with (near (Ratan2 (B2R y) (B2R x))). destruct (Ratan2_spec (B2R x) (B2R y) ltac:(destruct N; auto)) as (_ & _ & _ & Rg).
    destruct (near_ok4 (Ratan2 (B2R y) (B2R x)) ltac:(apply Rabs_lt; lra)) as (F & Er & _). split; [exact F|exact Er].
Qed.

#[local] Existing Instance crO.
(** one radian about the direction (1, 2, 2) *)
Example C102_case_radian : let v := [| fofZ 1; fofZ 2; fofZ 2 |] : V3 f64 in
  exists q ax q', q_rotation (fofZ 1) v = Ok q /\ q_axis_angle q = (Some ax, q_get_angle q) /\ Rabs (B2R (q_get_angle q) - 1) <= / 10 ^ 14 /\ closev (/ 10 ^ 13) ax [| 1 / 3; 2 / 3; 2 / 3 |] /\
  q_rotation (q_get_angle q) ax = Ok q' /\ close4 (/ 10 ^ 13) q' (polar [| 1 / 3; 2 / 3; 2 / 3 |] (/ 2)).
Proof.
  intros v. pose proof uro53 as U. pose proof (uro_pos (prec := 53)) as P. destruct (v122_ok crO) as (Nv & Lv & _). fold v in Nv, Lv.
  destruct (fofZ_int (prec := 53) (emax := 1024) 1 ltac:(cbn; lia)) as [F1 V1]. destruct (fofZ_int (prec := 53) (emax := 1024) 2 ltac:(cbn; lia)) as [F2 V2].
  destruct (rotation_polar (prec := 53) (emax := 1024) ltac:(lia) ltac:(lia) (11 / 10 * u53) (fofZ 1) v F1 Nv (crO_trig _) ltac:(lra)) as (q & Eq & Nq & DU & C).
  set (u := [| 1 / 3; 2 / 3; 2 / 3 |] : V3 R).
  match type of DU with v3_dot ?d _ = _ => assert (Du : d = u) end.
  { match type of Lv with ?l = _ => change ([| B2R (fofZ 1 : f64) / l; B2R (fofZ 2 : f64) / l; B2R (fofZ 2 : f64) / l |] = u) end. rewrite Lv. change ([| B2R (fofZ 1 : f64) / 3; B2R (fofZ 2 : f64) / 3; B2R (fofZ 2 : f64) / 3 |] = u). rewrite V1, V2. reflexivity. }
  rewrite Du in C, DU. rewrite V1 in C. change (q_new (cos (1 / 2)) (v3_scale u (sin (1 / 2)))) with (polar u (1 / 2)) in C.
  replace (1 / 2) with (/ 2) in C by lra.
  assert (S4 : 4 / 10 <= sin (/ 2)) by (destruct (small_trig (/ 2) ltac:(lra)) as [_ B]; apply Rabs_le_inv in B; lra).
  assert (Hh : 0 <= / 2 <= PI) by (pose proof PI2_1; lra).
  set (E := 142 / 100 * (11 / 10 * u53) + 5 * u53) in *. assert (LE : E <= 7 * u53) by (unfold E; lra).
  assert (L : 250 * (E + 2 * u53 + 5 * u53) <= sin (/ 2)) by lra.
  assert (U15 : u53 <= / 10 ^ 15) by (rewrite u53_val; lra).
  destruct (c102_round_trip (prec := 53) (emax := 1024) ltac:(lia) ltac:(lia) (2 * u53) E q u (/ 2) DU Hh C crO_atan L) as (ax & q' & Ea & Eq' & _ & C').
  destruct (c102_axis (prec := 53) (emax := 1024) ltac:(lia) ltac:(lia) (2 * u53) E q u (/ 2) DU Hh C crO_atan L) as (ax' & Ea' & Ca). unfold q_axis_angle in Ea. rewrite Ea' in Ea. injection Ea as ->.
  destruct (c102_angle (prec := 53) (emax := 1024) ltac:(lia) ltac:(lia) (2 * u53) E q u (/ 2) DU Hh C ltac:(lra) crO_atan ltac:(lra)) as [_ Vt].
  exists q, ax, q'. split; [exact Eq|split; [unfold q_axis_angle; rewrite Ea'; reflexivity|split; [ |split; [ |split; [exact Eq'| ]]]]].
  - replace (2 * / 2) with 1 in Vt by lra. eapply Rle_trans; [exact Vt| ]. assert (22 / 10 * E + 2 * (2 * u53) + 18 * u53 <= 38 * u53) by lra.
    assert (38 * u53 <= / 10 ^ 14) by (rewrite u53_val; lra). lra.
  - destruct Ca as [Fa Va]. split; [exact Fa|eapply Rle_trans; [exact Va| ]]. apply Rmult_le_reg_r with (sin (/ 2)); [lra| ]. unfold Rdiv. rewrite Rmult_assoc, Rinv_l, Rmult_1_r by lra.
    assert (66 * u53 <= / 10 ^ 13 * (4 / 10)) by (rewrite u53_val; lra). apply Rle_trans with (/ 10 ^ 13 * (4 / 10)); [lra|apply Rmult_le_compat_l; lra].
  - destruct C' as [Fc Vc]. split; [exact Fc|eapply Rle_trans; [exact Vc| ]]. assert (13 * E + 10 * (2 * u53) + 75 * u53 <= 186 * u53) by lra. assert (186 * u53 <= / 10 ^ 13) by (rewrite u53_val; lra). lra.
Qed.

Lemma near_0 : near 0 = plus0.
Proof. unfold near. rewrite round_0 by apply valid_rnd_N. rewrite scaled_mantissa_0. replace (Ztrunc 0) with 0%Z by (symmetry; exact (Ztrunc_IZR 0)). reflexivity. Qed.
Example C102_case_small : exists a : Quaternion f64, 0 < B2R (qcomp 1 a) /\ q_axis_angle a = (None, plus0).
Proof.
  destruct (c102_small_refuted crO) as (a & _ & H1 & H2).
  - change (near (Ratan2 (B2R plus0) (B2R (Bone : f64))) = plus0). rewrite Bone_correct. replace (Ratan2 (B2R plus0) 1) with 0; [exact near_0| ].
    unfold Ratan2. destruct (Rlt_dec 0 1) as [_|N]; [ |lra]. change (B2R plus0) with 0. unfold Rdiv. rewrite Rmult_0_l. symmetry. apply atan_0.
  - change (near (sin (B2R plus0)) = plus0). change (B2R plus0) with 0. rewrite sin_0. exact near_0.
  - exists a. split; assumption.
Qed.
