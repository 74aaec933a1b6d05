(** * ProofsFloatExp: exponential, logarithm and square root of float quaternions (C103) *)

From Coq Require Import List Arith ZArith Reals Bool Lra Lia.
From Flocq Require Import Core Relative Sterbenz Mult_error IEEE754.BinarySingleNaN.
From Verif Require Import Base Scalar Vec Mat2 Mat3 Mat4 Mat5 Mat6 Slices MatLoops MatOps Quat Transf DualQuat RingDet Spec LoopFacts Entries InstZ InstR RFacts TrigFacts LUFacts QRFacts ProofsRing ProofsQuat ProofsRot ProofsRigid ProofsEuler ProofsSlerp InstF FloatFacts ProofsFloat ProofsFloat2 ProofsFloatErr ProofsFloatInv ProofsFloatNorm ProofsFloatRot ProofsFloatDrift ProofsFloatRigid ProofsFloatDQ ProofsFloatFromRot ProofsFloatRotH ProofsFloatQR ExpSeries ProofsExp ProofsFloatAngles ProofsFloatEuler ProofsFloatLog ProofsFloatScrew ProofsFloatSlerp ProofsFloatAxis.
Local Open Scope R_scope.

Lemma exp_near r : Rabs r <= / 10 -> Rabs (exp r - 1) <= 112 / 100 * Rabs r.
Proof.
  intros L. apply Rabs_le_inv in L. pose proof (exp_ineq1_le r) as A. pose proof (exp_ineq1_le (- r)) as B. rewrite exp_Ropp in B. pose proof (exp_pos r) as X. set (x := exp r) in *. clearbody x.
  assert (C : (1 - r) * x <= 1) by (apply Rmult_le_reg_r with (/ x); [apply Rinv_0_lt_compat, X| ]; rewrite Rmult_assoc, Rinv_r, Rmult_1_r by lra; lra).
  unfold Rabs at 2. destruct (Rcase_abs r); apply Rabs_le; split; nra.
Qed.
Lemma ln_near x : Rabs (x - 1) <= / 10 -> Rabs (ln x) <= 112 / 100 * Rabs (x - 1).
Proof.
  intros L. apply Rabs_le_inv in L. pose proof (exp_ineq1_le (ln x)) as A. pose proof (exp_ineq1_le (- ln x)) as B. rewrite exp_Ropp in B. rewrite exp_ln in A, B by lra. set (l := ln x) in *. clearbody l.
  assert (C : (1 - l) * x <= 1) by (apply Rmult_le_reg_r with (/ x); [apply Rinv_0_lt_compat; lra| ]; rewrite Rmult_assoc, Rinv_r, Rmult_1_r by lra; lra).
  unfold Rabs at 2. destruct (Rcase_abs (x - 1)); apply Rabs_le; split; nra.
Qed.
Lemma cos_Rabs t : cos (Rabs t) = cos t.
Proof. unfold Rabs. destruct (Rcase_abs t); [apply cos_neg|reflexivity]. Qed.

(** the vector [w sin|w| / |w|] near [d sin t] when [w] is near [t d] *)
Lemma sinc_near (w d : nat -> R) t tau : nrm 3 d = 1 -> nrm 3 (fun k => w k - t * d k) <= tau -> 0 < nrm 3 w ->
  nrm 3 (fun k => sin (nrm 3 w) / nrm 3 w * w k - sin t * d k) <= 3 * tau.
Proof.
  intros Nd C M. set (m := nrm 3 w) in *. pose proof (sin_abs m) as SA. rewrite (Rabs_pos_eq m) in SA by lra.
  assert (SC : Rabs (sin m / m) <= 1).
  { unfold Rdiv. rewrite Rabs_mult, (Rabs_pos_eq (/ m)) by (left; apply Rinv_0_lt_compat, M). apply Rmult_le_reg_r with m; [exact M| ]. rewrite Rmult_assoc, Rinv_l, Rmult_1_r by lra. lra. }
  pose proof (nrm_diff 3 w (fun k => t * d k)) as D. rewrite nrm_scal, Nd, Rmult_1_r in D. fold m in D. assert (D' := Rle_trans _ _ _ D C).
  assert (K : Rabs (t * (sin m / m) - sin t) <= 2 * tau).
  { assert (G : forall s, 0 <= s -> Rabs (m - s) <= tau -> Rabs (s * (sin m / m) - sin s) <= 2 * tau).
    { intros s Hs L. replace (s * (sin m / m) - sin s) with ((s - m) * (sin m / m) + (sin m - sin s)) by (field; lra). eapply Rle_trans; [apply Rabs_triang| ]. rewrite Rabs_mult, (Rabs_minus_sym s m).
      pose proof (sin_lip m s). assert (Rabs (m - s) * Rabs (sin m / m) <= tau * 1) by (apply Rmult_le_compat; try apply Rabs_pos; assumption). lra. }
    destruct (Rle_lt_dec 0 t) as [T|T].
    - rewrite (Rabs_pos_eq t T) in D'. exact (G t T D').
    - rewrite (Rabs_left t T) in D'. specialize (G (- t) ltac:(lra) D'). rewrite sin_neg in G. replace (- t * (sin m / m) - - sin t) with (- (t * (sin m / m) - sin t)) in G by ring. rewrite Rabs_Ropp in G. exact G. }
  rewrite (nrm_ext 3 _ (fun k => sin m / m * (w k - t * d k) + (t * (sin m / m) - sin t) * d k)) by (intros k _; ring).
  eapply Rle_trans; [apply (nrm_plus 3 (fun k => sin m / m * (w k - t * d k)) (fun k => (t * (sin m / m) - sin t) * d k))| ]. rewrite !nrm_scal, Nd, Rmult_1_r.
  assert (Rabs (sin m / m) * nrm 3 (fun k => w k - t * d k) <= 1 * tau) by (apply Rmult_le_compat; [apply Rabs_pos|apply nrm_pos|exact SC|exact C]). lra.
Qed.

Section F.
Context {prec emax : Z} {Hp : Prec_gt_0 prec} {He : Prec_lt_emax prec emax} {O : FOracle (binary_float prec emax)}.
Notation fl := (binary_float prec emax).
Notation uro := (uro (prec := prec)).
Notation eta := (eta (prec := prec) (emax := emax)).
Hypothesis Hp11 : (11 <= prec)%Z.
Hypothesis He4 : (4 * prec <= emax)%Z.

(** sine, cosine, arc tangent, and the exponential and logarithm near 0 and 1, within [e] *)
Definition explog_ok (e : R) : Prop := atan_ok e /\
  (forall x : fl, is_finite x = true -> Rabs (B2R x) <= / 2 -> is_finite (fexp x) = true /\ Rabs (B2R (fexp x) - exp (B2R x)) <= e) /\
  (forall x : fl, is_finite x = true -> Rabs (B2R x - 1) <= / 2 -> is_finite (fln x) = true /\ Rabs (B2R (fln x) - ln (B2R x)) <= e).

Lemma norm3_abs4 (v : V3 fl) : (forall k, (k < 3)%nat -> is_finite (vfun v k) = true) -> nrm 3 (vR v) <= 4 ->
  is_finite (v3_norm2 v) = true /\ Bsign (v3_norm2 v) = false /\ Rabs (B2R (v3_norm2 v) - nrm 3 (vR v)) <= 17 * uro.
Proof.
  intros F L. pose proof (uro_small Hp11) as U. pose proof (uro_pos (prec := prec)) as P. pose proof (eta_sq Hp11 He4) as Es. pose proof (eta_tiny Hp11 He4) as Et.
  assert (T0 : 0 <= eta) by apply eta_pos.
  pose proof (F 0%nat ltac:(lia)) as Fx. pose proof (F 1%nat ltac:(lia)) as Fy. pose proof (F 2%nat ltac:(lia)) as Fz. clear F.
  assert (Ev : v3_norm2 v = fsqrt (add (add (mul (vfun v 0) (vfun v 0)) (mul (vfun v 1) (vfun v 1))) (mul (vfun v 2) (vfun v 2)))) by (destruct v as (x&y&z&[]); reflexivity).
  pose proof (nrm_sq 3 (vR v)) as HS. pose proof (nrm_pos 3 (vR v)) as H0. set (h := nrm 3 (vR v)) in *.
  assert (SE : sq_sum 3 (vR v) = B2R (vfun v 0) * B2R (vfun v 0) + B2R (vfun v 1) * B2R (vfun v 1) + B2R (vfun v 2) * B2R (vfun v 2)).
  { unfold sq_sum, vR. lazy [sumn add mul zero R_Num]. ring. }
  rewrite SE in HS. clear SE. rewrite Ev. clear Ev. clearbody h. set (x := vfun v 0) in *. set (y := vfun v 1) in *. set (z := vfun v 2) in *. clearbody x y z.
  assert (X2 : 0 <= B2R x * B2R x) by nra. assert (Y2 : 0 <= B2R y * B2R y) by nra. assert (Z2 : 0 <= B2R z * B2R z) by nra.
  assert (SB : h * h <= 16) by nra.
  destruct (mul_ok Hp11 He4 x x Fx Fx ltac:(rewrite Rabs_pos_eq; lra)) as [F1 E1]. destruct (mul_ok Hp11 He4 y y Fy Fy ltac:(rewrite Rabs_pos_eq; lra)) as [F2 E2].
  destruct (mul_ok Hp11 He4 z z Fz Fz ltac:(rewrite Rabs_pos_eq; lra)) as [F3 E3].
  rewrite (Rabs_pos_eq (B2R x * B2R x)) in E1 by lra. rewrite (Rabs_pos_eq (B2R y * B2R y)) in E2 by lra. rewrite (Rabs_pos_eq (B2R z * B2R z)) in E3 by lra.
  pose proof (sq_sign x F1) as S1. pose proof (sq_sign y F2) as S2. pose proof (sq_sign z F3) as S3.
  pose proof (sign_nonneg _ S1) as A0. pose proof (sign_nonneg _ S2) as B0. pose proof (sign_nonneg _ S3) as D0.
  set (A := mul x x) in *. set (B := mul y y) in *. set (D := mul z z) in *. apply Rabs_le_inv in E1. apply Rabs_le_inv in E2. apply Rabs_le_inv in E3.
  assert (UX : uro * (B2R x * B2R x) <= / 2048 * (B2R x * B2R x)) by (apply Rmult_le_compat_r; lra).
  assert (UY : uro * (B2R y * B2R y) <= / 2048 * (B2R y * B2R y)) by (apply Rmult_le_compat_r; lra).
  assert (UZ : uro * (B2R z * B2R z) <= / 2048 * (B2R z * B2R z)) by (apply Rmult_le_compat_r; lra).
  destruct (add_ok Hp11 He4 A B F1 F2 ltac:(rewrite Rabs_pos_eq; lra)) as [F4 E4]. rewrite (Rabs_pos_eq (B2R A + B2R B)) in E4 by lra.
  pose proof (sum_sign A B F4 S1 S2) as S4. pose proof (sign_nonneg _ S4) as G0. set (G := add A B) in *. apply Rabs_le_inv in E4.
  assert (UAB : uro * (B2R A + B2R B) <= / 2048 * (B2R A + B2R B)) by (apply Rmult_le_compat_r; lra).
  destruct (add_ok Hp11 He4 G D F4 F3 ltac:(rewrite Rabs_pos_eq; lra)) as [F5 E5]. rewrite (Rabs_pos_eq (B2R G + B2R D)) in E5 by lra.
  pose proof (sum_sign G D F5 S4 S3) as S5. pose proof (sign_nonneg _ S5) as C0. set (C := add G D) in *. apply Rabs_le_inv in E5.
  assert (FS : is_finite (fsqrt C) = true).
  { change (fsqrt C) with (Bsqrt mode_NE C). destruct (Bsqrt_correct prec emax Hp He mode_NE C) as (_ & Q & _). rewrite Q. clear Q. clearbody C.
    destruct C as [s|s| |s m k Hx]; try discriminate F5; [reflexivity| ]. cbn in S5. subst s. reflexivity. }
  split; [exact FS|split].
  { change (fsqrt C) with (Bsqrt mode_NE C) in *. destruct (Bsqrt_correct prec emax Hp He mode_NE C) as (_ & _ & Q). rewrite Q; [exact S5|destruct (Bsqrt mode_NE C); (discriminate FS || reflexivity)]. }
  destruct (sqrt_round C) as (e4 & L4 & V4). change (fsqrt C) with (Bsqrt mode_NE C). rewrite V4. clear V4. apply Rabs_le_inv in L4.
  assert (EC : Rabs (B2R C - h * h) <= 302 / 100 * uro * (h * h) + 32 / 10 * eta).
  { assert (UE : uro * eta <= / 2048 * eta) by (apply Rmult_le_compat_r; lra).
    assert (K1 : B2R A + B2R B <= (1 + / 2048) * (B2R x * B2R x + B2R y * B2R y) + 2 * eta) by lra.
    assert (K2 : B2R G + B2R D <= (1 + 2 / 2000) * (h * h) + 32 / 10 * eta) by lra.
    assert (K3 : uro * (B2R A + B2R B) <= uro * ((1 + / 2048) * (B2R x * B2R x + B2R y * B2R y) + 2 * eta)) by (apply Rmult_le_compat_l; lra).
    assert (K4 : uro * (B2R G + B2R D) <= uro * ((1 + 2 / 2000) * (h * h) + 32 / 10 * eta)) by (apply Rmult_le_compat_l; lra).
    assert (0 <= uro * (B2R x * B2R x)) by (apply Rmult_le_pos; lra). assert (0 <= uro * (B2R y * B2R y)) by (apply Rmult_le_pos; lra). assert (0 <= uro * (B2R z * B2R z)) by (apply Rmult_le_pos; lra).
    assert (UH : uro * (h * h) = uro * (B2R x * B2R x) + uro * (B2R y * B2R y) + uro * (B2R z * B2R z)) by (rewrite HS; ring).
    clear - E1 E2 E3 E4 E5 K3 K4 UE UH HS H H1 H2 T0. apply Rabs_le. lra. }
  pose proof (sqrt_sqrt (B2R C) C0) as QC. pose proof (sqrt_pos (B2R C)) as g0. set (g := sqrt (B2R C)) in *. rewrite <- QC in EC.
  clearbody g. clear - EC g0 H0 L P U Es Et T0 L4.
  assert (D : Rabs (g - h) <= 122 / 10 * uro).
  { destruct (Rle_lt_dec uro h) as [K|K].
    - assert (Q : Rabs (g - h) * h <= Rabs (g * g - h * h)).
      { replace (g * g - h * h) with ((g - h) * (g + h)) by ring. rewrite Rabs_mult, (Rabs_pos_eq (g + h)) by lra. apply Rmult_le_compat_l; [apply Rabs_pos|lra]. }
      apply Rmult_le_reg_r with h; [lra| ]. assert (uro * uro <= uro * h) by (apply Rmult_le_compat_l; lra).
      assert (uro * (h * h) <= uro * (4 * h)) by (apply Rmult_le_compat_l; [lra|apply Rmult_le_compat_r; lra]). lra.
    - apply Rabs_le_inv in EC. assert (h * h <= uro * uro) by (apply Rmult_le_compat; lra). assert (uro * (h * h) <= / 2048 * (uro * uro)) by (apply Rmult_le_compat; try lra; nra).
      assert (g <= 11 / 10 * uro) by nra. apply Rabs_le. lra. }
  apply Rabs_le_inv in D. assert (Eg : Rabs (g * e4) <= 42 / 10 * uro).
  { rewrite Rabs_mult, (Rabs_pos_eq g) by lra. apply Rmult_le_compat; [lra|apply Rabs_pos|lra|apply Rabs_le; lra]. }
  apply Rabs_le_inv in Eg. apply Rabs_le. lra.
Qed.

Lemma eta_cube : 1000000 * eta <= uro * (2 * uro * (2 * uro)).
Proof.
  pose proof (uro_small Hp11) as U. pose proof (uro_pos (prec := prec)) as P. pose proof (eta_small He4) as Et. replace (uro ^ 5) with (uro * (uro * uro) * (uro * uro)) in Et by ring.
  assert (Q : uro * uro <= / 2048 * / 2048) by (apply Rmult_le_compat; lra). assert (0 <= uro * (uro * uro)) by (apply Rmult_le_pos; [lra|nra]).
  assert (uro * (uro * uro) * (uro * uro) <= uro * (uro * uro) * (/ 2048 * / 2048)) by (apply Rmult_le_compat_l; assumption). lra.
Qed.
Lemma huge : 8 * / uro + 8 < bpow radix2 emax.
Proof.
  pose proof (uro_small Hp11) as U. pose proof (uro_pos (prec := prec)) as P. assert (V : uro = bpow radix2 (- prec)) by (unfold FloatFacts.uro; replace (1 - prec)%Z with (1 + - prec)%Z by ring; rewrite bpow_plus; change (bpow radix2 1) with 2; lra).
  assert (I : / uro = bpow radix2 prec) by (rewrite V, <- bpow_opp, Z.opp_involutive; reflexivity). rewrite I.
  apply Rlt_le_trans with (bpow radix2 (4 + prec)); [ |apply bpow_le; lia]. rewrite bpow_plus. change (bpow radix2 4) with 16.
  assert (bpow radix2 1 <= bpow radix2 prec) by (apply bpow_le; lia). change (bpow radix2 1) with 2 in H. lra.
Qed.

Lemma mul_big (x y : fl) : is_finite x = true -> is_finite y = true -> 2 * Rabs (B2R x * B2R y) + 2 < bpow radix2 emax ->
  is_finite (mul x y) = true /\ exists e h, Rabs e <= uro /\ Rabs h <= eta /\ B2R (mul x y) = B2R x * B2R y * (1 + e) + h.
Proof.
  intros Fx Fy L. pose proof (Bmult_correct prec emax Hp He mode_NE x y) as C. cbn [round_mode] in C. rewrite fe_eq in C.
  pose proof (uro_small Hp11) as U. pose proof (uro_pos (prec := prec)) as P.
  rewrite Rlt_bool_true in C.
  - destruct C as (C1 & C2 & _). rewrite Fx, Fy in C2. split; [exact C2| ].
    assert (C3 : B2R (mul x y) = round radix2 (FLT_exp (3 - emax - prec) prec) ZnearestE (B2R x * B2R y)) by exact C1. rewrite C3.
    destruct (rnd_error (prec := prec) (emax := emax) (B2R x * B2R y)) as (e & h & Le & Lh & ->). exists e, h. auto.
  - eapply Rle_lt_trans; [apply (rnd_bound Hp11 He4)| ]. pose proof (Rabs_pos (B2R x * B2R y)). nra.
Qed.

(** a norm above the machine epsilon has a small relative error *)
Lemma norm3_rel (v : V3 fl) : is_finite (v3_norm2 v) = true -> 2 * uro <= B2R (v3_norm2 v) ->
  0 < nrm 3 (vR v) /\ Rabs (B2R (v3_norm2 v) - nrm 3 (vR v)) <= 28 / 10 * uro * nrm 3 (vR v).
Proof.
  intros F L. rewrite <- len3_nrm. apply (norm_val Hp11). split; [exact F| ]. eapply Rle_trans; [exact eta_cube| ]. pose proof (uro_pos (prec := prec)) as P.
  apply Rmult_le_compat_l; [lra|apply Rmult_le_compat; lra].
Qed.

Lemma nrm_abs3 f : nrm 3 (fun k => Rabs (f k)) = nrm 3 f.
Proof. unfold nrm. f_equal. unfold sq_sum. apply sumn_ext. intros k _. rewrite <- Rabs_mult. apply Rabs_pos_eq, Rle_0_sqr. Qed.
Lemma unit3_nrm (d : V3 R) : v3_dot d d = 1 -> nrm 3 (vfun d) = 1.
Proof.
  intros Uu. assert (Q : sq_sum 3 (vfun d) = 1) by (destruct d as (x&y&z&[]); rewrite <- Uu; unfold sq_sum; lazy [sumn add mul zero R_Num vfun List.nth alist v3_dot ix0 ix1 ix2 ahd atl fst snd]; ring).
  unfold nrm. rewrite Q. apply sqrt_1.
Qed.

(** ** the exponential *)
Lemma c103_exp : forall e tau rho (q : Quaternion fl) (d : V3 R) t, v3_dot d d = 1 -> Rabs t <= 7 / 2 -> (forall k, (k < 4)%nat -> is_finite (qcomp k q) = true) ->
  Rabs (B2R (qcomp 0 q)) <= rho -> rho <= / 10 -> sqrt (sumn 3 (fun k => (B2R (qcomp (S k) q) - t * vfun d k) ^ 2)) <= tau -> tau <= / 10 -> explog_ok e -> e <= / 50 ->
  close4 (4 * tau + 5 / 2 * rho + 5 * e + 62 * uro) (q_exp q) (polar d t).
Proof.
  intros e tau rho q d t Ud Lt F Hr Lr Ht Lta ((TR & _) & EX & _) Le.
  pose proof (uro_small Hp11) as U. pose proof (uro_pos (prec := prec)) as P. pose proof (eta_tiny Hp11 He4) as Et. assert (T0 : 0 <= eta) by apply eta_pos.
  assert (e0 : 0 <= e) by (apply (trig_pos e (zero : fl)); apply TR; [reflexivity|cbn [B2R zero F_Num]; rewrite Rabs_R0; lra]).
  pose proof (unit3_nrm d Ud) as Nd. destruct q as [r w fq]. change (qcomp 0 (mkQ r w fq)) with r in Hr.
  pose proof (F 0%nat ltac:(lia)) as Fr. change (is_finite r = true) in Fr.
  assert (Fw : forall k, (k < 3)%nat -> is_finite (vfun w k) = true).
  { intros k Hk. pose proof (F (S k) ltac:(lia)) as G. destruct w as (x1&x2&x3&[]). destruct k as [ |[ |[ |k]]]; [exact G..|lia]. }
  assert (C : nrm 3 (fun k => vR w k - t * vfun d k) <= tau).
  { eapply Rle_trans; [ |exact Ht]. apply Req_le. unfold nrm, sq_sum. f_equal. apply sumn_ext. intros k Hk. unfold vR.
    replace (B2R (qcomp (S k) (mkQ r w fq))) with (B2R (vfun w k)) by (destruct w as (x1&x2&x3&[]); destruct k as [ |[ |[ |k]]]; [reflexivity..|lia]). ring. }
  clear F Ht. assert (tau0 : 0 <= tau) by (eapply Rle_trans; [apply nrm_pos|exact C]). assert (rho0 : 0 <= rho) by (eapply Rle_trans; [apply Rabs_pos|exact Hr]).
  pose proof (nrm_diff 3 (vR w) (fun k => t * vfun d k)) as Dm. rewrite nrm_scal, Nd, Rmult_1_r in Dm. assert (Dm' := Rle_trans _ _ _ Dm C). clear Dm.
  pose proof (nrm_pos 3 (vR w)) as m0. set (m := nrm 3 (vR w)) in *. assert (Lm : m <= 36 / 10) by (apply Rabs_le_inv in Dm'; lra).
  destruct (norm3_abs4 w Fw ltac:(fold m; lra)) as (Fn & Sn & Vn). fold m in Vn. set (n := v3_norm2 w) in *. pose proof (sign_nonneg n Sn) as n0. set (N := B2R n) in *.
  assert (Nb : Rabs N <= 4) by (apply Rabs_le_inv in Vn; apply Rabs_le; lra).
  destruct (TR n Fn Nb) as [[Fs Vs] [Fc Vc]]. fold N in Vs, Vc.
  destruct (EX r Fr ltac:(lra)) as [Fe Ve]. pose proof (exp_near (B2R r) ltac:(lra)) as EN. set (re := fexp r) in *.
  set (kap := e + 112 / 100 * rho). assert (Kr : Rabs (B2R re - 1) <= kap).
  { replace (B2R re - 1) with ((B2R re - exp (B2R r)) + (exp (B2R r) - 1)) by ring. eapply Rle_trans; [apply Rabs_triang|unfold kap; lra]. }
  assert (Lk : kap <= 14 / 100) by (unfold kap; lra). assert (k0 : 0 <= kap) by (unfold kap; lra). pose proof (Rabs_le_inv _ _ Kr) as Kr'.
  set (c := fcos n) in *. set (s := fsin n) in *.
  assert (Bc : Rabs (B2R c) <= 102 / 100) by (pose proof (COS_bound N); apply Rabs_le_inv in Vc; apply Rabs_le; lra).
  assert (Bs : Rabs (B2R s) <= 102 / 100) by (pose proof (SIN_bound N); apply Rabs_le_inv in Vs; apply Rabs_le; lra).
  assert (Br : Rabs (B2R re) <= 114 / 100) by (apply Rabs_le; lra).
  (* the real part *)
  assert (Q0 : is_finite (mul re c) = true /\ Rabs (B2R (mul re c) - cos t) <= 102 / 100 * kap + e + tau + 184 / 10 * uro).
  { assert (Bp : Rabs (B2R re * B2R c) <= 12 / 10) by (rewrite Rabs_mult; eapply Rle_trans; [apply Rmult_le_compat; [apply Rabs_pos|apply Rabs_pos|exact Br|exact Bc]|lra]).
    destruct (mul_ok Hp11 He4 re c Fe Fc ltac:(lra)) as [F1 E1]. split; [exact F1| ].
    assert (uro * Rabs (B2R re * B2R c) <= uro * (12 / 10)) by (apply Rmult_le_compat_l; lra).
    assert (X1 : Rabs ((B2R re - 1) * B2R c) <= kap * (102 / 100)) by (rewrite Rabs_mult; apply Rmult_le_compat; try apply Rabs_pos; assumption).
    pose proof (cos_lip N (Rabs t)) as CL. rewrite cos_Rabs in CL.
    assert (X2 : Rabs (N - Rabs t) <= 17 * uro + tau) by (replace (N - Rabs t) with ((N - m) + (m - Rabs t)) by ring; eapply Rle_trans; [apply Rabs_triang|lra]).
    replace (B2R (mul re c) - cos t) with ((B2R (mul re c) - B2R re * B2R c) + (B2R re - 1) * B2R c + (B2R c - cos N) + (cos N - cos t)) by ring.
    apply Rabs_le_inv in E1. apply Rabs_le_inv in X1. apply Rabs_le_inv in Vc. assert (CL' := Rle_trans _ _ _ CL X2). apply Rabs_le_inv in CL'. apply Rabs_le. lra. }
  (* the vector part *)
  set (scale := if ltb (epsilon : fl) n then mul re (div s n) else re).
  assert (Q3 : (forall k, (k < 3)%nat -> is_finite (mul (vfun w k) scale) = true) /\ nrm 3 (fun k => B2R (mul (vfun w k) scale) - sin t * vfun d k) <= 104 / 100 * kap + e + 3 * tau + 42 * uro).
  { destruct epsilon_val as [Fep Vep]. assert (V2 : bpow radix2 (1 - prec) = 2 * uro) by (unfold FloatFacts.uro; lra).
    assert (Lb : ltb (epsilon : fl) n = Rlt_bool (2 * uro) N) by (change (ltb (epsilon : fl) n) with (Bltb (epsilon : fl) n); rewrite Bltb_correct by assumption; rewrite Vep, V2; reflexivity).
    unfold scale. rewrite Lb. destruct (Rlt_bool_spec (2 * uro) N) as [LN|LN].
    - destruct (norm3_rel w Fn ltac:(fold n N; lra)) as [Mp Vr]. fold m n N in Mp, Vr.
      pose proof (Rabs_le_inv _ _ Vr) as Vr'. assert (Um : uro * m <= / 2048 * m) by (apply Rmult_le_compat_r; lra).
      assert (MN : m <= 1002 / 1000 * N) by lra. assert (Np : 0 < N) by lra.
      assert (IN : / N <= / (2 * uro)) by (apply Rinv_le_contravar; lra). assert (I0 : 0 < / N) by (apply Rinv_0_lt_compat, Np).
      pose proof huge as HG. assert (IU : / (2 * uro) = / 2 * / uro) by (field; lra). assert (Iu : 0 < / uro) by (apply Rinv_0_lt_compat, P).
      set (g := B2R s / N). assert (Bg : Rabs g <= 102 / 100 * / N) by (unfold g, Rdiv; rewrite Rabs_mult, (Rabs_pos_eq (/ N)) by lra; apply Rmult_le_compat_r; lra).
      destruct (div_big Hp11 He4 s n Fs ltac:(fold N; lra) ltac:(fold N g; lra)) as (Fd & e1 & h1 & L1 & H1 & V1). change (Bdiv mode_NE s n) with (div s n) in *. fold N g in V1.
      apply Rabs_le_inv in L1. apply Rabs_le_inv in H1. pose proof (Rabs_pos g) as g0.
      assert (Dg : Rabs (B2R (div s n) - g) <= uro * Rabs g + eta).
      { rewrite V1. replace (g * (1 + e1) + h1 - g) with (e1 * g + h1) by ring. eapply Rle_trans; [apply Rabs_triang| ]. rewrite Rabs_mult. apply Rplus_le_compat; [apply Rmult_le_compat_r; [exact g0|apply Rabs_le; lra]|apply Rabs_le; lra]. }
      assert (Ug : uro * Rabs g <= / 2048 * Rabs g) by (apply Rmult_le_compat_r; lra).
      assert (Bd : Rabs (B2R (div s n)) <= 1001 / 1000 * Rabs g + eta) by (replace (B2R (div s n)) with ((B2R (div s n) - g) + g) by ring; eapply Rle_trans; [apply Rabs_triang|lra]).
      assert (Bd2 : Rabs (B2R re * B2R (div s n)) <= 114 / 100 * (1001 / 1000 * Rabs g + eta)) by (rewrite Rabs_mult; apply Rmult_le_compat; try apply Rabs_pos; assumption).
      destruct (mul_big re (div s n) Fe Fd ltac:(lra)) as (Fm & e2 & h2 & L2 & H2 & V2'). apply Rabs_le_inv in H2.
      assert (Dm2 : Rabs (B2R (mul re (div s n)) - B2R re * g) <= 232 / 100 * uro * Rabs g + 3 * eta).
      { rewrite V2'. replace (B2R re * B2R (div s n) * (1 + e2) + h2 - B2R re * g) with (e2 * (B2R re * B2R (div s n)) + B2R re * (B2R (div s n) - g) + h2) by ring.
        eapply Rle_trans; [apply Rabs_triang| ]. eapply Rle_trans; [apply Rplus_le_compat_r, Rabs_triang| ]. rewrite (Rabs_mult e2), (Rabs_mult (B2R re) (B2R (div s n) - g)).
        assert (Y1 : Rabs e2 * Rabs (B2R re * B2R (div s n)) <= uro * (114 / 100 * (1001 / 1000 * Rabs g + eta))) by (apply Rmult_le_compat; try apply Rabs_pos; assumption).
        assert (Y2 : Rabs (B2R re) * Rabs (B2R (div s n) - g) <= 114 / 100 * (uro * Rabs g + eta)) by (apply Rmult_le_compat; try apply Rabs_pos; assumption).
        assert (Y3 : Rabs h2 <= eta) by (apply Rabs_le; lra). assert (Y4 : uro * eta <= / 2048 * eta) by (apply Rmult_le_compat_r; lra). assert (Y5 : 0 <= uro * Rabs g) by (apply Rmult_le_pos; lra). lra. }
      set (sc := mul re (div s n)) in *.
      assert (Mg : m * Rabs g <= 1023 / 1000).
      { apply Rle_trans with (1002 / 1000 * N * (102 / 100 * / N)); [apply Rmult_le_compat; lra| ]. replace (1002 / 1000 * N * (102 / 100 * / N)) with (1002 / 1000 * (102 / 100)) by (field; lra). lra. }
      assert (Bsc : Rabs (B2R sc) <= 115 / 100 * Rabs g + 3 * eta).
      { replace (B2R sc) with ((B2R sc - B2R re * g) + B2R re * g) by ring. eapply Rle_trans; [apply Rabs_triang| ]. rewrite (Rabs_mult (B2R re)).
        assert (Rabs (B2R re) * Rabs g <= 114 / 100 * Rabs g) by (apply Rmult_le_compat_r; assumption). assert (232 / 100 * uro * Rabs g = 232 / 100 * (uro * Rabs g)) by ring. lra. }
      assert (K : forall k, (k < 3)%nat -> is_finite (mul (vfun w k) sc) = true /\ Rabs (B2R (mul (vfun w k) sc) - B2R re * g * vR w k) <= (348 / 100 * uro * Rabs g + 4 * eta) * Rabs (vR w k) + eta).
      { intros k Hk. pose proof (comp_nrm 3 (vR w) k Hk) as Bk. fold m in Bk. pose proof (Rabs_pos (vR w k)) as B0.
        assert (Bp : Rabs (vR w k * B2R sc) <= Rabs (vR w k) * (115 / 100 * Rabs g + 3 * eta)) by (rewrite Rabs_mult; apply Rmult_le_compat_l; assumption).
        assert (Bp2 : Rabs (vR w k) * (115 / 100 * Rabs g + 3 * eta) <= m * (115 / 100 * Rabs g + 3 * eta)) by (apply Rmult_le_compat_r; lra).
        assert (Bp3 : m * eta <= 36 / 10 * eta) by (apply Rmult_le_compat_r; lra).
        destruct (mul_ok Hp11 He4 (vfun w k) sc (Fw k Hk) Fm ltac:(fold (vR w k); lra)) as [F1 E1]. fold (vR w k) in E1. split; [exact F1| ].
        replace (B2R (mul (vfun w k) sc) - B2R re * g * vR w k) with ((B2R (mul (vfun w k) sc) - vR w k * B2R sc) + vR w k * (B2R sc - B2R re * g)) by ring.
        eapply Rle_trans; [apply Rabs_triang| ]. rewrite (Rabs_mult (vR w k) (B2R sc - B2R re * g)).
        assert (Y1 : uro * Rabs (vR w k * B2R sc) <= uro * (Rabs (vR w k) * (115 / 100 * Rabs g + 3 * eta))) by (apply Rmult_le_compat_l; lra).
        assert (Y2 : Rabs (vR w k) * Rabs (B2R sc - B2R re * g) <= Rabs (vR w k) * (232 / 100 * uro * Rabs g + 3 * eta)) by (apply Rmult_le_compat_l; assumption).
        assert (Y3 : uro * (Rabs (vR w k) * eta) <= / 2048 * (Rabs (vR w k) * eta)) by (apply Rmult_le_compat_r; [apply Rmult_le_pos; lra|lra]).
        assert (Y4 : 0 <= uro * Rabs (vR w k) * Rabs g) by (repeat apply Rmult_le_pos; lra). assert (Y5 : 0 <= Rabs (vR w k) * eta) by (apply Rmult_le_pos; lra).
        replace ((348 / 100 * uro * Rabs g + 4 * eta) * Rabs (vR w k)) with (348 / 100 * (uro * Rabs (vR w k) * Rabs g) + 4 * (Rabs (vR w k) * eta)) by ring.
        replace (uro * (Rabs (vR w k) * (115 / 100 * Rabs g + 3 * eta))) with (115 / 100 * (uro * Rabs (vR w k) * Rabs g) + 3 * (uro * (Rabs (vR w k) * eta))) in Y1 by ring.
        replace (Rabs (vR w k) * (232 / 100 * uro * Rabs g + 3 * eta)) with (232 / 100 * (uro * Rabs (vR w k) * Rabs g) + 3 * (Rabs (vR w k) * eta)) in Y2 by ring. lra. }
      split; [intros k Hk; apply (K k Hk)| ].
      rewrite (nrm_ext 3 _ (fun k => (B2R (mul (vfun w k) sc) - B2R re * g * vR w k) + ((B2R re * g - sin m / m) * vR w k + (sin m / m * vR w k - sin t * vfun d k)))) by (intros k _; ring).
      eapply Rle_trans; [apply (nrm_plus 3 (fun k => B2R (mul (vfun w k) sc) - B2R re * g * vR w k) (fun k => (B2R re * g - sin m / m) * vR w k + (sin m / m * vR w k - sin t * vfun d k)))| ].
      eapply Rle_trans; [apply Rplus_le_compat_l, (nrm_plus 3 (fun k => (B2R re * g - sin m / m) * vR w k) (fun k => sin m / m * vR w k - sin t * vfun d k))| ]. rewrite nrm_scal. fold m.
      pose proof (sinc_near (vR w) (vfun d) t tau Nd C Mp) as Z3. fold m in Z3.
      assert (Z1 : nrm 3 (fun k => B2R (mul (vfun w k) sc) - B2R re * g * vR w k) <= 4 * uro).
      { eapply Rle_trans; [apply (nrm_mono 3 _ (fun k => (348 / 100 * uro * Rabs g + 4 * eta) * Rabs (vR w k) + eta)); intros k Hk; apply (K k Hk)| ].
        eapply Rle_trans; [apply (nrm_plus 3 (fun k => (348 / 100 * uro * Rabs g + 4 * eta) * Rabs (vR w k)) (fun _ => eta))| ]. rewrite nrm_scal, nrm_abs3. fold m.
        assert (Y0 : 0 <= uro * Rabs g) by (apply Rmult_le_pos; lra). rewrite Rabs_pos_eq by lra.
        assert (Z2 : nrm 3 (fun _ => eta) <= 2 * eta) by (apply nrm_le; [lra| ]; unfold sq_sum; lazy [sumn add mul zero R_Num]; nra).
        assert (Y1 : uro * (m * Rabs g) <= uro * (1023 / 1000)) by (apply Rmult_le_compat_l; lra). assert (Y2 : m * eta <= 36 / 10 * eta) by (apply Rmult_le_compat_r; lra).
        replace ((348 / 100 * uro * Rabs g + 4 * eta) * m) with (348 / 100 * (uro * (m * Rabs g)) + 4 * (m * eta)) by ring. lra. }
      assert (Z2 : Rabs (B2R re * g - sin m / m) * m <= 104 / 100 * kap + e + 133 / 10 * uro).
      { replace (Rabs (B2R re * g - sin m / m) * m) with (Rabs ((B2R re * g - sin m / m) * m)) by (rewrite Rabs_mult, (Rabs_pos_eq m) by lra; reflexivity). replace ((B2R re * g - sin m / m) * m) with ((B2R re - 1) * (m * g) + (B2R s * ((m - N) / N) + ((B2R s - sin N) + (sin N - sin m)))) by (unfold g; field; lra).
        eapply Rle_trans; [apply Rabs_triang| ]. eapply Rle_trans; [apply Rplus_le_compat_l, Rabs_triang| ]. eapply Rle_trans; [apply Rplus_le_compat_l, Rplus_le_compat_l, Rabs_triang| ].
        rewrite (Rabs_mult (B2R re - 1)), (Rabs_mult m g), (Rabs_pos_eq m) by lra. rewrite (Rabs_mult (B2R s)).
        assert (Y1 : Rabs (B2R re - 1) * (m * Rabs g) <= kap * (1023 / 1000)) by (apply Rmult_le_compat; try apply Rabs_pos; try assumption; apply Rmult_le_pos; lra).
        assert (Y2 : Rabs ((m - N) / N) <= 281 / 100 * uro).
        { unfold Rdiv. rewrite Rabs_mult, (Rabs_pos_eq (/ N)), Rabs_minus_sym by lra. apply Rmult_le_reg_r with N; [exact Np| ]. rewrite Rmult_assoc, Rinv_l, Rmult_1_r by lra.
          assert (uro * m <= uro * (1002 / 1000 * N)) by (apply Rmult_le_compat_l; lra). lra. }
        assert (Y3 : Rabs (B2R s) * Rabs ((m - N) / N) <= 102 / 100 * (281 / 100 * uro)) by (apply Rmult_le_compat; try apply Rabs_pos; assumption).
        pose proof (sin_lip N m) as Y4. assert (Y5 : uro * m <= uro * (36 / 10)) by (apply Rmult_le_compat_l; lra).
        assert (Y6 : 28 / 10 * uro * m <= 101 / 10 * uro) by lra. lra. }
      lra.
    - assert (Lm2 : m <= 19 * uro) by (apply Rabs_le_inv in Vn; lra).
      assert (K : forall k, (k < 3)%nat -> is_finite (mul (vfun w k) re) = true /\ Rabs (B2R (mul (vfun w k) re) - B2R re * vR w k) <= 115 / 100 * uro * Rabs (vR w k) + eta).
      { intros k Hk. pose proof (comp_nrm 3 (vR w) k Hk) as Bk. fold m in Bk. pose proof (Rabs_pos (vR w k)) as B0.
        assert (Bp : Rabs (vR w k * B2R re) <= Rabs (vR w k) * (114 / 100)) by (rewrite Rabs_mult; apply Rmult_le_compat_l; assumption).
        destruct (mul_ok Hp11 He4 (vfun w k) re (Fw k Hk) Fe ltac:(fold (vR w k); lra)) as [F1 E1]. fold (vR w k) in E1. split; [exact F1| ].
        rewrite (Rmult_comm (B2R re)). assert (uro * Rabs (vR w k * B2R re) <= uro * (Rabs (vR w k) * (114 / 100))) by (apply Rmult_le_compat_l; lra).
        assert (0 <= uro * Rabs (vR w k)) by (apply Rmult_le_pos; lra). lra. }
      split; [intros k Hk; apply (K k Hk)| ].
      rewrite (nrm_ext 3 _ (fun k => (B2R (mul (vfun w k) re) - B2R re * vR w k) + (B2R re * vR w k + (- sin t) * vfun d k))) by (intros k _; ring).
      eapply Rle_trans; [apply (nrm_plus 3 (fun k => B2R (mul (vfun w k) re) - B2R re * vR w k) (fun k => B2R re * vR w k + (- sin t) * vfun d k))| ].
      eapply Rle_trans; [apply Rplus_le_compat_l, (nrm_plus 3 (fun k => B2R re * vR w k) (fun k => (- sin t) * vfun d k))| ]. rewrite !nrm_scal, Nd, Rmult_1_r, Rabs_Ropp. fold m.
      assert (Z1 : nrm 3 (fun k => B2R (mul (vfun w k) re) - B2R re * vR w k) <= / 10 * uro).
      { eapply Rle_trans; [apply (nrm_mono 3 _ (fun k => 115 / 100 * uro * Rabs (vR w k) + eta)); intros k Hk; apply (K k Hk)| ].
        eapply Rle_trans; [apply (nrm_plus 3 (fun k => 115 / 100 * uro * Rabs (vR w k)) (fun _ => eta))| ]. rewrite nrm_scal, nrm_abs3, Rabs_pos_eq by lra. fold m.
        assert (Z2 : nrm 3 (fun _ => eta) <= 2 * eta) by (apply nrm_le; [lra| ]; unfold sq_sum; lazy [sumn add mul zero R_Num]; nra).
        assert (Y1 : uro * m <= / 2048 * (19 * uro)) by (apply Rmult_le_compat; lra). lra. }
      assert (Z2 : Rabs (B2R re) * m <= 114 / 100 * (19 * uro)) by (apply Rmult_le_compat; try apply Rabs_pos; assumption).
      assert (Z3 : Rabs (sin t) <= 19 * uro + tau) by (pose proof (sin_abs t); apply Rabs_le_inv in Dm'; lra). lra. }
  destruct Q0 as [Fq0 Vq0]. destruct Q3 as [Fq3 Vq3].
  assert (QK : forall k, (k < 3)%nat -> qcomp (S k) (q_exp (mkQ r w fq)) = mul (vfun w k) scale).
  { intros k Hk. destruct w as (x1&x2&x3&[]). destruct k as [ |[ |[ |k]]]; [reflexivity..|lia]. }
  split.
  - intros k Hk. destruct k as [ |k]; [exact Fq0|rewrite QK by lia; apply Fq3; lia].
  - rewrite close4_nrm. eapply Rle_trans; [apply nrm4_split| ]. cbv beta.
    assert (X0 : qR (q_exp (mkQ r w fq)) 0 - rq (polar d t) 0 = B2R (mul re c) - cos t) by reflexivity. rewrite X0.
    rewrite (nrm_ext 3 _ (fun k => B2R (mul (vfun w k) scale) - sin t * vfun d k)).
    + unfold kap in *. lra.
    + intros k Hk. unfold qR. rewrite QK by exact Hk. f_equal. destruct d as (d0&d1&d2&[]). destruct k as [ |[ |[ |k]]]; [ | | |lia]; [change (d0 * sin t = sin t * d0)|change (d1 * sin t = sin t * d1)|change (d2 * sin t = sin t * d2)]; ring.
Qed.

(** ** the logarithm *)
Lemma normalize_a_close E (a : Quaternion fl) (u : V3 R) h : v3_dot u u = 1 -> close4 E a (polar u h) -> E <= / 60 ->
  exists b s, q_normalize_a a = (b, s) /\ close4 (2 * E + 51 / 10 * uro) b (polar u h) /\ is_finite s = true /\ Rabs (B2R s - 1) <= E + 64 / 10 * uro.
Proof.
  intros Uu C LE. pose proof (uro_small Hp11) as U. pose proof (uro_pos (prec := prec)) as P. pose proof (polar_nrm u h Uu) as NA.
  destruct (normalize_close Hp11 He4 E a (polar u h) NA C ltac:(lra)) as (b & Eb & Cb). destruct C as [F C]. rewrite close4_nrm in C.
  assert (E0 : 0 <= E) by (eapply Rle_trans; [apply nrm_pos|exact C]). unfold q_normalize in Eb. unfold q_normalize_a. destruct (normalized a) eqn:Na.
  - exists a, one. injection Eb as <-. split; [reflexivity|split; [exact Cb| ]]. destruct (one_val (prec := prec) (emax := emax)) as [F1 V1]. split; [exact F1| ]. rewrite V1, Rminus_diag_eq, Rabs_R0 by reflexivity. lra.
  - exists b, (q_norm2 a). destruct (negb (nearly_zero (q_norm2 a))); [ |discriminate]. injection Eb as <-. split; [reflexivity|split; [exact Cb| ]].
    pose proof (nrm_diff 4 (qR a) (rq (polar u h))) as D. rewrite NA in D. assert (D' := Rle_trans _ _ _ D C). pose proof (Rabs_le_inv _ _ D') as D2. set (N := nrm 4 (qR a)) in *.
    destruct (near_norm2 Hp11 He4 E a (conj F D') ltac:(lra)) as [FN _]. split; [exact FN| ].
    destruct (dot_close Hp11 He4 a a (fun k Hk => conj (F k Hk) (F k Hk)) ltac:(fold N; lra) ltac:(fold N; lra)) as [_ VD].
    assert (DQ : dot4 (qR a) (qR a) = N * N) by (unfold N; rewrite nrm_sq, dot4_sumn; reflexivity). rewrite DQ in VD. set (q := B2R (q_dot a a)) in *.
    destruct (sqrt_round (q_dot a a)) as (e1 & L1 & V1). change (Bsqrt mode_NE (q_dot a a)) with (q_norm2 a) in V1. fold q in V1. rewrite V1.
    apply Rabs_le_inv in VD. apply Rabs_le_inv in L1. assert (NN : 9 / 10 <= N * N) by nra. pose proof (sqrt_pos q) as s0. pose proof (sqrt_sqrt q ltac:(lra)) as sq. set (s := sqrt q) in *.
    assert (DS : Rabs (s - N) <= 52 / 10 * uro).
    { apply Rabs_le. split; apply Rnot_lt_le; intros X.
      - assert (s * (s + N) <= (N - 52 / 10 * uro) * (s + N)) by (apply Rmult_le_compat_r; lra). assert (uro * (98 / 100) <= uro * (s + N)) by (apply Rmult_le_compat_l; lra). lra.
      - assert ((N + 52 / 10 * uro) * (s + N) <= s * (s + N)) by (apply Rmult_le_compat_r; lra). assert (uro * (98 / 100) <= uro * (s + N)) by (apply Rmult_le_compat_l; lra). lra. }
    apply Rabs_le_inv in DS. assert (Sx : Rabs (s * e1) <= 103 / 100 * uro) by (rewrite Rabs_mult; apply Rmult_le_compat; try apply Rabs_pos; apply Rabs_le; lra). apply Rabs_le_inv in Sx.
    replace (s * (1 + e1) - 1) with ((s - N) + s * e1 + (N - 1)) by ring. apply Rabs_le. lra.
Qed.

Lemma ln_form e E (a : Quaternion fl) (u : V3 R) h : v3_dot u u = 1 -> 0 <= h <= PI -> close4 E a (polar u h) -> E <= / 60 -> explog_ok e -> e <= / 50 ->
  (forall k, (k < 4)%nat -> is_finite (qcomp k (q_ln a)) = true) /\ Rabs (qR (q_ln a) 0) <= e + 112 / 100 * E + 72 / 10 * uro /\
  exists d t, v3_dot d d = 1 /\ Rabs (t - h) <= 22 / 10 * E + e + 11 * uro /\ nrm 3 (fun k => qR (q_ln a) (S k) - t * vfun d k) <= 17 * uro /\ nrm 3 (fun k => sin h * (vfun d k - vfun u k)) <= 4 * E + 24 * uro.
Proof.
  intros Uu Hh C LE (A & _ & LN) Le. pose proof (uro_small Hp11) as U. pose proof (uro_pos (prec := prec)) as P. pose proof (eta_tiny Hp11 He4) as Et. assert (T0 : 0 <= eta) by apply eta_pos. pose proof (atan_pos e A) as e0.
  destruct (close_parts E a u h Uu Hh C) as (E0 & _ & _ & Nu). pose proof pi_32 as P3. assert (S0 : 0 <= sin h) by (apply sin_ge_0; lra).
  destruct (normalize_a_close E a u h Uu C LE) as (b & s & Eb & Cb & Fs & Vs). unfold q_ln. rewrite Eb. unfold q_real, q_abs_imag, q_imag. cbv zeta.
  set (E' := 2 * E + 51 / 10 * uro) in *. assert (LE' : E' <= / 25) by (unfold E'; lra).
  destruct (LN s Fs ltac:(lra)) as [Fl Vl]. pose proof (ln_near (B2R s) ltac:(lra)) as Ln2.
  assert (Rl : Rabs (B2R (fln s)) <= e + 112 / 100 * E + 72 / 10 * uro) by (replace (B2R (fln s)) with ((B2R (fln s) - ln (B2R s)) + ln (B2R s)) by ring; eapply Rle_trans; [apply Rabs_triang|lra]).
  destruct (angle_core Hp11 He4 e E' b u h Uu Hh Cb LE' A) as [Fa Va]. destruct (close_parts E' b u h Uu Hh Cb) as (E0' & Hy & Cv & _). destruct Cb as [Fb _].
  set (v := Quat.q b) in *. set (al := fatan2 (v3_norm2 v) (Quat.q0 b)) in *. set (m := nrm 3 (vR v)) in *. destruct (hyp_comp (qR b 0 - cos h) (m - sin h)) as [_ Hm]. assert (Hm' := Rle_trans _ _ _ Hm Hy). pose proof (SIN_bound h) as [_ S1]. pose proof (nrm_pos 3 (vR v)) as m0. fold m in m0.
  assert (Lm : m <= 11 / 10) by (apply Rabs_le_inv in Hm'; lra).
  assert (Fv : forall k, (k < 3)%nat -> is_finite (vfun v k) = true).
  { intros k Hk. pose proof (Fb (S k) ltac:(lia)) as G. unfold v. destruct b as [b0 bv bf]. destruct bv as (x1&x2&x3&[]). destruct k as [ |[ |[ |k]]]; [exact G..|lia]. }
  destruct (norm3_abs Hp11 He4 v Fv ltac:(fold m; lra)) as (Fn & Sn & Vn). fold m in Vn. pose proof (sign_nonneg _ Sn) as n0. set (n := v3_norm2 v) in *. set (N := B2R n) in *.
  set (t := B2R al) in *. assert (Dt : Rabs (t - h) <= 22 / 10 * E + e + 11 * uro) by (unfold E' in Va; lra). pose proof (Rabs_le_inv _ _ Dt) as Dt'. assert (Bt : Rabs t <= 33 / 10) by (apply Rabs_le; lra).
  destruct epsilon_val as [Fep Vep]. assert (V2 : bpow radix2 (1 - prec) = 2 * uro) by (unfold FloatFacts.uro; lra).
  assert (Lb : ltb (epsilon : fl) n = Rlt_bool (2 * uro) N) by (change (ltb (epsilon : fl) n) with (Bltb (epsilon : fl) n); rewrite Bltb_correct by assumption; rewrite Vep, V2; reflexivity).
  rewrite Lb. destruct (Rlt_bool_spec (2 * uro) N) as [LN2|LN2]; cbv iota.
  - destruct (norm3_rel v Fn ltac:(fold n N; lra)) as [Mp Vr]. fold m n N in Mp, Vr. pose proof (Rabs_le_inv _ _ Vr) as Vr'. assert (Um : uro * m <= / 2048 * m) by (apply Rmult_le_compat_r; lra).
    assert (MN : m <= 1002 / 1000 * N) by lra. assert (Np : 0 < N) by lra.
    assert (IN : / N <= / (2 * uro)) by (apply Rinv_le_contravar; lra). assert (I0 : 0 < / N) by (apply Rinv_0_lt_compat, Np).
    pose proof huge as HG. assert (IU : / (2 * uro) = / 2 * / uro) by (field; lra). assert (Iu : 0 < / uro) by (apply Rinv_0_lt_compat, P).
    set (g := t / N). assert (Bg : Rabs g <= 33 / 10 * / N) by (unfold g, Rdiv; rewrite Rabs_mult, (Rabs_pos_eq (/ N)) by lra; apply Rmult_le_compat_r; lra).
    destruct (div_big Hp11 He4 al n Fa ltac:(fold N; lra) ltac:(fold N t g; lra)) as (Fd & e1 & h1 & L1 & H1 & V1). change (Bdiv mode_NE al n) with (div al n) in *. fold N t g in V1.
    apply Rabs_le_inv in L1. apply Rabs_le_inv in H1. pose proof (Rabs_pos g) as g0. set (sc := div al n) in *.
    assert (Dg : Rabs (B2R sc - g) <= uro * Rabs g + eta).
    { rewrite V1. replace (g * (1 + e1) + h1 - g) with (e1 * g + h1) by ring. eapply Rle_trans; [apply Rabs_triang| ]. rewrite Rabs_mult. apply Rplus_le_compat; [apply Rmult_le_compat_r; [exact g0|apply Rabs_le; lra]|apply Rabs_le; lra]. }
    assert (Ug : uro * Rabs g <= / 2048 * Rabs g) by (apply Rmult_le_compat_r; lra).
    assert (Bsc : Rabs (B2R sc) <= 1001 / 1000 * Rabs g + eta) by (replace (B2R sc) with ((B2R sc - g) + g) by ring; eapply Rle_trans; [apply Rabs_triang|lra]).
    assert (Mg : m * Rabs g <= 331 / 100).
    { apply Rle_trans with (1002 / 1000 * N * (33 / 10 * / N)); [apply Rmult_le_compat; lra| ]. replace (1002 / 1000 * N * (33 / 10 * / N)) with (1002 / 1000 * (33 / 10)) by (field; lra). lra. }
    assert (K : forall k, (k < 3)%nat -> is_finite (mul (vfun v k) sc) = true /\ Rabs (B2R (mul (vfun v k) sc) - g * vR v k) <= (2002 / 1000 * uro * Rabs g + 2 * eta) * Rabs (vR v k) + eta).
    { intros k Hk. pose proof (comp_nrm 3 (vR v) k Hk) as Bk. fold m in Bk. pose proof (Rabs_pos (vR v k)) as B0.
      assert (Bp : Rabs (vR v k * B2R sc) <= Rabs (vR v k) * (1001 / 1000 * Rabs g + eta)) by (rewrite Rabs_mult; apply Rmult_le_compat_l; assumption).
      assert (Bp2 : Rabs (vR v k) * (1001 / 1000 * Rabs g + eta) <= m * (1001 / 1000 * Rabs g + eta)) by (apply Rmult_le_compat_r; lra).
      assert (Bp3 : m * eta <= 11 / 10 * eta) by (apply Rmult_le_compat_r; lra).
      destruct (mul_ok Hp11 He4 (vfun v k) sc (Fv k Hk) Fd ltac:(fold (vR v k); lra)) as [F1 E1]. fold (vR v k) in E1. split; [exact F1| ].
      replace (B2R (mul (vfun v k) sc) - g * vR v k) with ((B2R (mul (vfun v k) sc) - vR v k * B2R sc) + vR v k * (B2R sc - g)) by ring.
      eapply Rle_trans; [apply Rabs_triang| ]. rewrite (Rabs_mult (vR v k) (B2R sc - g)).
      assert (Y1 : uro * Rabs (vR v k * B2R sc) <= uro * (Rabs (vR v k) * (1001 / 1000 * Rabs g + eta))) by (apply Rmult_le_compat_l; lra).
      assert (Y2 : Rabs (vR v k) * Rabs (B2R sc - g) <= Rabs (vR v k) * (uro * Rabs g + eta)) by (apply Rmult_le_compat_l; assumption).
      assert (Y3 : uro * (Rabs (vR v k) * eta) <= / 2048 * (Rabs (vR v k) * eta)) by (apply Rmult_le_compat_r; [apply Rmult_le_pos; lra|lra]).
      assert (Y4 : 0 <= uro * Rabs (vR v k) * Rabs g) by (repeat apply Rmult_le_pos; lra). assert (Y5 : 0 <= Rabs (vR v k) * eta) by (apply Rmult_le_pos; lra).
      replace ((2002 / 1000 * uro * Rabs g + 2 * eta) * Rabs (vR v k)) with (2002 / 1000 * (uro * Rabs (vR v k) * Rabs g) + 2 * (Rabs (vR v k) * eta)) by ring.
      replace (uro * (Rabs (vR v k) * (1001 / 1000 * Rabs g + eta))) with (1001 / 1000 * (uro * Rabs (vR v k) * Rabs g) + (uro * (Rabs (vR v k) * eta))) in Y1 by ring.
      replace (Rabs (vR v k) * (uro * Rabs g + eta)) with ((uro * Rabs (vR v k) * Rabs g) + (Rabs (vR v k) * eta)) in Y2 by ring. lra. }
    assert (QK : forall k, (k < 3)%nat -> qcomp (S k) (mkQ (fln s) (v3_scale v sc) false) = mul (vfun v k) sc).
    { intros k Hk. clearbody v. destruct v as (x1&x2&x3&[]). destruct k as [ |[ |[ |k]]]; [reflexivity..|lia]. }
    split; [intros k Hk; destruct k as [ |k]; [exact Fl|rewrite QK by lia; apply (K k); lia]| ]. split; [exact Rl| ].
    exists (dir3 v), t. assert (Lv : len3 v = m) by apply len3_nrm. assert (Lp : 0 < len3 v) by lra. destruct (dir_unit v Lp) as [DU DQ]. assert (Nd : nrm 3 (vfun (dir3 v)) = 1) by (unfold nrm; rewrite DQ; apply sqrt_1).
    assert (Dx : forall k, (k < 3)%nat -> vR v k = m * vfun (dir3 v) k).
    { intros k Hk. rewrite <- Lv. unfold dir3. set (l := len3 v) in *. clearbody l. clearbody v. destruct v as (a0&a1&a2&[]). destruct k as [ |[ |[ |k]]]; [ | | |lia].
      - change (B2R a0 = l * (B2R a0 / l)). field. lra.
      - change (B2R a1 = l * (B2R a1 / l)). field. lra.
      - change (B2R a2 = l * (B2R a2 / l)). field. lra. }
    split; [exact DU|split; [exact Dt|split]].
    + rewrite (nrm_ext 3 _ (fun k => (B2R (mul (vfun v k) sc) - g * vR v k) + (g * m - t) * vfun (dir3 v) k)) by (intros k Hk; unfold qR; rewrite (QK k Hk), (Dx k Hk); ring).
      eapply Rle_trans; [apply (nrm_plus 3 (fun k => B2R (mul (vfun v k) sc) - g * vR v k) (fun k => (g * m - t) * vfun (dir3 v) k))| ]. rewrite nrm_scal, Nd, Rmult_1_r.
      assert (Z1 : nrm 3 (fun k => B2R (mul (vfun v k) sc) - g * vR v k) <= 67 / 10 * uro).
      { eapply Rle_trans; [apply (nrm_mono 3 _ (fun k => (2002 / 1000 * uro * Rabs g + 2 * eta) * Rabs (vR v k) + eta)); intros k Hk; apply (K k Hk)| ].
        eapply Rle_trans; [apply (nrm_plus 3 (fun k => (2002 / 1000 * uro * Rabs g + 2 * eta) * Rabs (vR v k)) (fun _ => eta))| ]. rewrite nrm_scal, nrm_abs3. fold m.
        assert (Y0 : 0 <= uro * Rabs g) by (apply Rmult_le_pos; lra). rewrite Rabs_pos_eq by lra.
        assert (Z2 : nrm 3 (fun _ => eta) <= 2 * eta) by (apply nrm_le; [lra| ]; unfold sq_sum; lazy [sumn add mul zero R_Num]; clear - T0; nra).
        assert (Y1 : uro * (m * Rabs g) <= uro * (331 / 100)) by (apply Rmult_le_compat_l; lra). assert (Y2 : m * eta <= 11 / 10 * eta) by (apply Rmult_le_compat_r; lra).
        replace ((2002 / 1000 * uro * Rabs g + 2 * eta) * m) with (2002 / 1000 * (uro * (m * Rabs g)) + 2 * (m * eta)) by ring. lra. }
      assert (Z2 : Rabs (g * m - t) <= 94 / 10 * uro).
      { replace (g * m - t) with (t * ((m - N) / N)) by (unfold g; field; lra). rewrite Rabs_mult.
        assert (Y2 : Rabs ((m - N) / N) <= 281 / 100 * uro).
        { unfold Rdiv. rewrite Rabs_mult, (Rabs_pos_eq (/ N)), Rabs_minus_sym by lra. apply Rmult_le_reg_r with N; [exact Np| ]. rewrite Rmult_assoc, Rinv_l, Rmult_1_r by lra.
          assert (uro * m <= uro * (1002 / 1000 * N)) by (apply Rmult_le_compat_l; lra). lra. }
        assert (Rabs t * Rabs ((m - N) / N) <= 33 / 10 * (281 / 100 * uro)) by (apply Rmult_le_compat; try apply Rabs_pos; assumption). lra. }
      lra.
    + rewrite (nrm_ext 3 _ (fun k => (sin h - m) * vfun (dir3 v) k + (vR v k - sin h * vfun u k))) by (intros k Hk; rewrite (Dx k Hk); ring).
      eapply Rle_trans; [apply (nrm_plus 3 (fun k => (sin h - m) * vfun (dir3 v) k) (fun k => vR v k - sin h * vfun u k))| ]. rewrite nrm_scal, Nd, Rmult_1_r, Rabs_minus_sym. unfold E' in *. lra.
  - split; [intros k Hk; destruct k as [ |[ |[ |[ |k]]]]; [exact Fl|exact Fa|reflexivity|reflexivity|lia]| ]. split; [exact Rl| ].
    exists ([| 1; 0; 0 |] : V3 R), t. assert (DU : v3_dot ([| 1; 0; 0 |] : V3 R) [| 1; 0; 0 |] = 1) by (change (1 * 1 + 0 * 0 + 0 * 0 = 1); ring). pose proof (unit3_nrm _ DU) as Nd.
    split; [exact DU|split; [exact Dt|split]].
    + apply nrm_le; [lra| ]. unfold sq_sum. lazy [sumn add mul zero R_Num]. change (0 + (t - t * 1) * (t - t * 1) + (0 - t * 0) * (0 - t * 0) + (0 - t * 0) * (0 - t * 0) <= 17 * uro * (17 * uro)).
      replace (0 + (t - t * 1) * (t - t * 1) + (0 - t * 0) * (0 - t * 0) + (0 - t * 0) * (0 - t * 0)) with 0 by ring. apply Rle_0_sqr.
    + rewrite nrm_scal, (Rabs_pos_eq _ S0).
      assert (Z : nrm 3 (fun k => vfun ([| 1; 0; 0 |] : V3 R) k - vfun u k) <= 2).
      { rewrite (nrm_ext 3 _ (fun k => vfun ([| 1; 0; 0 |] : V3 R) k + (-1) * vfun u k)) by (intros k _; ring). eapply Rle_trans; [apply (nrm_plus 3 (vfun ([| 1; 0; 0 |] : V3 R)) (fun k => (-1) * vfun u k))| ].
        rewrite nrm_scal, Nd, Nu, Rabs_left by lra. lra. }
      assert (Sh : sin h <= 2 * E + 12 * uro) by (apply Rabs_le_inv in Hm'; apply Rabs_le_inv in Vn; unfold E' in *; lra).
      assert (sin h * nrm 3 (fun k => vfun ([| 1; 0; 0 |] : V3 R) k - vfun u k) <= sin h * 2) by (apply Rmult_le_compat_l; assumption). lra.
Qed.

(** the distance of two points given by axis and angle *)
Lemma polar_near (d u : V3 R) t h : v3_dot d d = 1 -> nrm 4 (fun k => rq (polar d t) k - rq (polar u h) k) <= 2 * Rabs (t - h) + nrm 3 (fun k => sin h * (vfun d k - vfun u k)).
Proof.
  intros Ud. pose proof (unit3_nrm d Ud) as Nd. set (D := fun k => rq (polar d t) k - rq (polar u h) k). pose proof (nrm4_split D) as SD. pose proof (cos_lip t h) as CL. pose proof (sin_lip t h) as SL.
  change (Rabs (cos t - cos h)) with (Rabs (D 0%nat)) in CL.
  assert (Dk : forall k, (k < 3)%nat -> D (S k) = (sin t - sin h) * vfun d k + sin h * (vfun d k - vfun u k)).
  { intros k Hk. unfold D. destruct u as (u0&u1&u2&[]). destruct d as (d0&d1&d2&[]). destruct k as [ |[ |[ |k]]]; [ | | |lia].
    - change (d0 * sin t - u0 * sin h = (sin t - sin h) * d0 + sin h * (d0 - u0)). ring.
    - change (d1 * sin t - u1 * sin h = (sin t - sin h) * d1 + sin h * (d1 - u1)). ring.
    - change (d2 * sin t - u2 * sin h = (sin t - sin h) * d2 + sin h * (d2 - u2)). ring. }
  rewrite (nrm_ext 3 (fun k => D (S k)) _ Dk) in SD. pose proof (nrm_plus 3 (fun k => (sin t - sin h) * vfun d k) (fun k => sin h * (vfun d k - vfun u k))) as T. cbv beta in T. rewrite (nrm_scal 3 (sin t - sin h)), Nd, Rmult_1_r in T. lra.
Qed.

(** the logarithm: a real part near 0 and a vector part near the angle times the axis *)
Lemma c103_ln : forall e E (a : Quaternion fl) (u : V3 R) h, v3_dot u u = 1 -> 0 <= h <= PI -> close4 E a (polar u h) -> E <= / 60 -> explog_ok e -> e <= / 50 -> 0 < sin h ->
  is_finite (qcomp 0 (q_ln a)) = true /\ Rabs (B2R (qcomp 0 (q_ln a))) <= e + 112 / 100 * E + 72 / 10 * uro /\ closev ((15 * E + e + 110 * uro) / sin h) (Quat.q (q_ln a)) (v3_scale u h).
Proof.
  intros e E a u h Uu Hh C LE A Le Sp. destruct (ln_form e E a u h Uu Hh C LE A Le) as (F & Rr & d & t & Ud & Dt & Dw & Du). pose proof (uro_pos (prec := prec)) as P. pose proof (atan_pos e (proj1 A)) as e0. pose proof pi_32 as P3.
  destruct (close_parts E a u h Uu Hh C) as (E0 & _ & _ & Nu). pose proof (unit3_nrm d Ud) as Nd. pose proof (SIN_bound h) as [_ S1].
  split; [apply (F 0%nat); lia|split; [exact Rr| ]]. set (b := q_ln a) in *.
  assert (KB : forall k, (k < 3)%nat -> vfun (Quat.q b) k = qcomp (S k) b) by (intros k Hk; clearbody b; destruct b as [b0 (x1&x2&x3&[]) bf]; destruct k as [ |[ |[ |k]]]; [reflexivity..|lia]).
  split; [intros k Hk; rewrite KB by exact Hk; apply F; lia| ]. rewrite closev_nrm.
  rewrite (nrm_ext 3 _ (fun k => (qR b (S k) - t * vfun d k) + ((t - h) * vfun d k + h / sin h * (sin h * (vfun d k - vfun u k))))).
  - eapply Rle_trans; [apply (nrm_plus 3 (fun k => qR b (S k) - t * vfun d k) (fun k => (t - h) * vfun d k + h / sin h * (sin h * (vfun d k - vfun u k))))| ].
    eapply Rle_trans; [apply Rplus_le_compat_l, (nrm_plus 3 (fun k => (t - h) * vfun d k) (fun k => h / sin h * (sin h * (vfun d k - vfun u k))))| ]. rewrite (nrm_scal 3 (t - h)), (nrm_scal 3 (h / sin h)), Nd, Rmult_1_r.
    assert (I1 : 0 < / sin h) by (apply Rinv_0_lt_compat, Sp). assert (I2 : 1 <= / sin h) by (rewrite <- Rinv_1; apply Rinv_le_contravar; lra).
    assert (HQ : Rabs (h / sin h) <= 32 / 10 * / sin h) by (unfold Rdiv; rewrite Rabs_mult, (Rabs_pos_eq (/ sin h)), (Rabs_pos_eq h) by lra; apply Rmult_le_compat_r; lra).
    assert (Z : Rabs (h / sin h) * nrm 3 (fun k => sin h * (vfun d k - vfun u k)) <= 32 / 10 * / sin h * (4 * E + 24 * uro)) by (apply Rmult_le_compat; [apply Rabs_pos|apply nrm_pos|exact HQ|exact Du]).
    assert (Y : (22 / 10 * E + e + 28 * uro) * 1 <= (22 / 10 * E + e + 28 * uro) * / sin h) by (apply Rmult_le_compat_l; lra).
    unfold Rdiv. assert (X1 : 0 <= E * / sin h) by (apply Rmult_le_pos; lra). assert (X2 : 0 <= uro * / sin h) by (apply Rmult_le_pos; lra). lra.
  - intros k Hk. unfold vR, qR. rewrite KB by exact Hk. replace (vfun (v3_scale u h) k) with (vfun u k * h) by (destruct u as (u0&u1&u2&[]); destruct k as [ |[ |[ |k]]]; [reflexivity..|lia]). field. lra.
Qed.

Lemma close4_trans E1 (a : Quaternion fl) (A B : Quaternion R) E2 : close4 E1 a A -> nrm 4 (fun k => rq A k - rq B k) <= E2 -> close4 (E1 + E2) a B.
Proof.
  intros [F C] D. split; [exact F| ]. rewrite close4_nrm in *. rewrite (nrm_ext 4 _ (fun k => (qR a k - rq A k) + (rq A k - rq B k))) by (intros k _; ring). eapply Rle_trans; [apply nrm_plus|lra].
Qed.
Lemma close4_weak E1 (a : Quaternion fl) (A : Quaternion R) E2 : close4 E1 a A -> E1 <= E2 -> close4 E2 a A.
Proof. intros [F C] L. split; [exact F|eapply Rle_trans; [exact C|exact L]]. Qed.
Lemma sq3 (a : Quaternion fl) (d : V3 R) t : sqrt (sumn 3 (fun k => (B2R (qcomp (S k) a) - t * vfun d k) ^ 2)) = nrm 3 (fun k => qR a (S k) - t * vfun d k).
Proof. unfold nrm, sq_sum, qR. f_equal. apply sumn_ext. intros k Hk. ring. Qed.

(** the exponential of the logarithm gives the rotation back, whatever its angle *)
Lemma c103_exp_ln : forall e E (a : Quaternion fl) (u : V3 R) h, v3_dot u u = 1 -> 0 <= h <= PI -> close4 E a (polar u h) -> E <= / 60 -> explog_ok e -> e <= / 50 ->
  close4 (12 * E + 10 * e + 200 * uro) (q_exp (q_ln a)) (polar u h).
Proof.
  intros e E a u h Uu Hh C LE A Le. destruct (ln_form e E a u h Uu Hh C LE A Le) as (F & Rr & d & t & Ud & Dt & Dw & Du). pose proof (uro_pos (prec := prec)) as P. pose proof (uro_small Hp11) as U. pose proof (atan_pos e (proj1 A)) as e0. pose proof pi_32 as P3.
  destruct (close_parts E a u h Uu Hh C) as (E0 & _). rewrite <- sq3 in Dw. assert (Bt : Rabs t <= 7 / 2) by (apply Rabs_le_inv in Dt; apply Rabs_le; lra).
  pose proof (c103_exp e (17 * uro) (e + 112 / 100 * E + 72 / 10 * uro) (q_ln a) d t Ud Bt F Rr ltac:(lra) Dw ltac:(lra) A Le) as X.
  pose proof (polar_near d u t h Ud) as PN. eapply close4_weak; [eapply close4_trans; [exact X|exact PN]| ]. lra.
Qed.

(** ** the square root *)
Lemma polar_sq (d : V3 R) x : v3_dot d d = 1 -> forall k, (k < 4)%nat -> hp (rq (polar d x)) (rq (polar d x)) k = rq (polar d (2 * x)) k.
Proof.
  intros Ud k Hk. destruct d as (d0&d1&d2&[]). assert (V : d0 * d0 + d1 * d1 + d2 * d2 = 1) by exact Ud. pose proof (cos_2a x) as C2. pose proof (sin_2a x) as S2.
  assert (G : forall f, f 0%nat = cos x -> f 1%nat = d0 * sin x -> f 2%nat = d1 * sin x -> f 3%nat = d2 * sin x -> hp f f 0 = cos (2 * x) /\ hp f f 1 = d0 * sin (2 * x) /\ hp f f 2 = d1 * sin (2 * x) /\ hp f f 3 = d2 * sin (2 * x)).
  { intros f f0 f1 f2 f3. unfold hp. lazy [add sub mul zero R_Num hamilton h4 comp4]. rewrite f0, f1, f2, f3, C2, S2. repeat split; [ |ring..].
    transitivity (cos x * cos x - sin x * sin x * (d0 * d0 + d1 * d1 + d2 * d2)); [ring|rewrite V; ring]. }
  destruct (G (rq (polar [| d0; d1; d2 |] x)) eq_refl eq_refl eq_refl eq_refl) as (G0 & G1 & G2 & G3). destruct k as [ |[ |[ |[ |k]]]]; [exact G0|exact G1|exact G2|exact G3|lia].
Qed.

Lemma c103_sqrt : forall e E (a : Quaternion fl) (u : V3 R) h, v3_dot u u = 1 -> 0 <= h <= PI -> close4 E a (polar u h) -> E <= / 60 -> explog_ok e -> e <= / 50 ->
  close4 (12 * E + 16 * e + 320 * uro) (q_mul (q_sqrt a) (q_sqrt a)) (polar u h).
Proof.
  intros e E a u h Uu Hh C LE A Le. destruct (ln_form e E a u h Uu Hh C LE A Le) as (F & Rr & d & t & Ud & Dt & Dw & Du). pose proof (uro_pos (prec := prec)) as P. pose proof (uro_small Hp11) as U. pose proof (eta_tiny Hp11 He4) as Et. assert (T0 : 0 <= eta) by apply eta_pos. pose proof (atan_pos e (proj1 A)) as e0. pose proof pi_32 as P3.
  destruct (close_parts E a u h Uu Hh C) as (E0 & _). pose proof (unit3_nrm d Ud) as Nd. assert (Bt : Rabs t <= 33 / 10) by (apply Rabs_le_inv in Dt; apply Rabs_le; lra).
  destruct (one_val (prec := prec) (emax := emax)) as [F1 V1]. destruct (two_val (emax := emax) Hp11) as [F2 V2]. destruct (half_div Hp11 He4 one (add one one) F1 F2 V2) as [Fh Vh]. rewrite V1 in Vh.
  unfold q_sqrt. cbv zeta. set (hf := div one (add one one)) in *. set (H := B2R hf) in *. pose proof (Rabs_le_inv _ _ Vh) as Vh'. set (l := q_ln a) in *.
  assert (KB : forall k, (k < 4)%nat -> qcomp k (q_scale l hf) = mul (qcomp k l) hf) by (intros k Hk; clearbody l; destruct l as [b0 (x1&x2&x3&[]) bf]; destruct k as [ |[ |[ |[ |k]]]]; [reflexivity..|lia]).
  assert (Bw : nrm 3 (fun k => qR l (S k)) <= 34 / 10).
  { rewrite (nrm_ext 3 _ (fun k => (qR l (S k) - t * vfun d k) + t * vfun d k)) by (intros k _; ring). eapply Rle_trans; [apply (nrm_plus 3 (fun k => qR l (S k) - t * vfun d k) (fun k => t * vfun d k))| ]. rewrite nrm_scal, Nd. lra. }
  set (rho := e + 112 / 100 * E + 72 / 10 * uro) in *. assert (Lr : 0 <= rho <= / 20) by (unfold rho; lra).
  assert (B4 : forall k, (k < 4)%nat -> Rabs (qR l k) <= 34 / 10).
  { intros k Hk. destruct k as [ |k]; [lra|eapply Rle_trans; [exact (comp_nrm 3 (fun k => qR l (S k)) k ltac:(lia))|exact Bw]]. }
  assert (K : forall k, (k < 4)%nat -> is_finite (qcomp k (q_scale l hf)) = true /\ Rabs (qR (q_scale l hf) k - / 2 * qR l k) <= 51 / 100 * uro * Rabs (qR l k) + 5 * eta).
  { intros k Hk. unfold qR at 1. rewrite KB by exact Hk. pose proof (B4 k Hk) as Bk. pose proof (Rabs_pos (qR l k)) as B0.
    assert (BH : Rabs H <= 501 / 1000) by (apply Rabs_le; lra).
    assert (Bp : Rabs (qR l k * H) <= Rabs (qR l k) * (501 / 1000)) by (rewrite Rabs_mult; apply Rmult_le_compat_l; assumption).
    destruct (mul_ok Hp11 He4 (qcomp k l) hf (F k Hk) Fh ltac:(fold (qR l k) H; lra)) as [F3 E3]. fold (qR l k) H in E3. split; [exact F3| ].
    replace (B2R (mul (qcomp k l) hf) - / 2 * qR l k) with ((B2R (mul (qcomp k l) hf) - qR l k * H) + qR l k * (H - 1 / 2)) by field. eapply Rle_trans; [apply Rabs_triang| ]. rewrite (Rabs_mult (qR l k) (H - 1 / 2)).
    assert (Y1 : uro * Rabs (qR l k * H) <= uro * (Rabs (qR l k) * (501 / 1000))) by (apply Rmult_le_compat_l; lra).
    assert (Y2 : Rabs (qR l k) * Rabs (H - 1 / 2) <= 34 / 10 * eta) by (apply Rmult_le_compat; try apply Rabs_pos; assumption). assert (0 <= uro * Rabs (qR l k)) by (apply Rmult_le_pos; lra). lra. }
  assert (R2 : Rabs (B2R (qcomp 0 (q_scale l hf))) <= 51 / 100 * rho + / 10 * uro).
  { destruct (K 0%nat ltac:(lia)) as [_ K0]. change (B2R (qcomp 0 (q_scale l hf))) with (qR (q_scale l hf) 0). replace (qR (q_scale l hf) 0) with ((qR (q_scale l hf) 0 - / 2 * qR l 0) + / 2 * qR l 0) by ring. eapply Rle_trans; [apply Rabs_triang| ].
    rewrite (Rabs_mult (/ 2)), (Rabs_pos_eq (/ 2)) by lra. assert (uro * Rabs (qR l 0) <= uro * / 20) by (apply Rmult_le_compat_l; lra). lra. }
  assert (W2 : nrm 3 (fun k => qR (q_scale l hf) (S k) - t / 2 * vfun d k) <= 11 * uro).
  { rewrite (nrm_ext 3 _ (fun k => (qR (q_scale l hf) (S k) - / 2 * qR l (S k)) + / 2 * (qR l (S k) - t * vfun d k))) by (intros k _; field).
    eapply Rle_trans; [apply (nrm_plus 3 (fun k => qR (q_scale l hf) (S k) - / 2 * qR l (S k)) (fun k => / 2 * (qR l (S k) - t * vfun d k)))| ]. rewrite (nrm_scal 3 (/ 2)), (Rabs_pos_eq (/ 2)) by lra.
    assert (Z1 : nrm 3 (fun k => qR (q_scale l hf) (S k) - / 2 * qR l (S k)) <= 18 / 10 * uro).
    { eapply Rle_trans; [apply (nrm_mono 3 _ (fun k => 51 / 100 * uro * Rabs (qR l (S k)) + 5 * eta)); intros k Hk; apply (K (S k)); lia| ].
      eapply Rle_trans; [apply (nrm_plus 3 (fun k => 51 / 100 * uro * Rabs (qR l (S k))) (fun _ => 5 * eta))| ]. rewrite nrm_scal, (nrm_abs3 (fun k => qR l (S k))), Rabs_pos_eq by lra.
      assert (Z2 : nrm 3 (fun _ => 5 * eta) <= 10 * eta) by (apply nrm_le; [lra| ]; unfold sq_sum; lazy [sumn add mul zero R_Num]; clear - T0; nra).
      assert (uro * nrm 3 (fun k => qR l (S k)) <= uro * (34 / 10)) by (apply Rmult_le_compat_l; lra). lra. }
    lra. }
  rewrite <- sq3 in W2. assert (Bt2 : Rabs (t / 2) <= 7 / 2) by (apply Rabs_le_inv in Bt; apply Rabs_le; lra).
  pose proof (c103_exp e (11 * uro) (51 / 100 * rho + / 10 * uro) (q_scale l hf) d (t / 2) Ud Bt2 (fun k Hk => proj1 (K k Hk)) R2 ltac:(lra) W2 ltac:(lra) A Le) as [Fx Cx].
  rewrite close4_nrm in Cx. set (x := q_exp (q_scale l hf)) in *. set (X := 4 * (11 * uro) + 5 / 2 * (51 / 100 * rho + / 10 * uro) + 5 * e + 62 * uro) in *.
  assert (LX : X <= 143 / 100 * E + 63 / 10 * e + 116 * uro) by (unfold X, rho; lra). assert (LX2 : X <= 21 / 100) by lra.
  set (Y := rq (polar d (t / 2))) in *. assert (NY : nrm 4 Y = 1) by (apply polar_nrm, Ud).
  assert (Nx : nrm 4 (qR x) <= 1 + X) by (pose proof (nrm_diff 4 (qR x) Y) as D; rewrite NY in D; assert (D' := Rle_trans _ _ _ D Cx); apply Rabs_le_inv in D'; lra).
  pose proof (nrm_pos 4 (qR x)) as Px. destruct (q_mul_step Hp11 He4 x x Fx Fx ltac:(lra) ltac:(lra)) as [Fm Em].
  assert (NN : nrm 4 (qR x) * nrm 4 (qR x) <= 147 / 100) by (eapply Rle_trans; [apply Rmult_le_compat; [exact Px|exact Px|exact Nx|exact Nx]|clear - LX2 Nx Px; nra]).
  assert (Em2 : nrm 4 (fun k => qR (q_mul x x) k - hp (qR x) (qR x) k) <= 12 * uro).
  { eapply Rle_trans; [exact Em| ]. assert (uro * (nrm 4 (qR x) * nrm 4 (qR x)) <= uro * (147 / 100)) by (apply Rmult_le_compat_l; lra). lra. }
  assert (HP : nrm 4 (fun k => hp (qR x) (qR x) k - hp Y Y k) <= X * (2 + X)).
  { rewrite (nrm_ext 4 _ (fun k => hp (fun j => qR x j - Y j) (qR x) k + hp Y (fun j => qR x j - Y j) k)).
    - eapply Rle_trans; [apply (nrm_plus 4 (hp (fun j => qR x j - Y j) (qR x)) (hp Y (fun j => qR x j - Y j)))| ]. rewrite !hp_norm, NY.
      assert (nrm 4 (fun j => qR x j - Y j) * nrm 4 (qR x) <= X * (1 + X)) by (apply Rmult_le_compat; [apply nrm_pos|apply nrm_pos|exact Cx|exact Nx]). lra.
    - intros k Hk. unfold hp. destruct k as [ |[ |[ |[ |k]]]]; [ | | | |lia]; lazy [add sub mul zero R_Num hamilton h4 comp4]; ring. }
  assert (X0 : 0 <= X) by (eapply Rle_trans; [apply nrm_pos|exact Cx]). assert (XX : X * (2 + X) <= X * (221 / 100)) by (apply Rmult_le_compat_l; lra).
  assert (CC : close4 (12 * uro + X * (2 + X)) (q_mul x x) (polar d t)).
  { split; [exact Fm| ]. rewrite close4_nrm. rewrite (nrm_ext 4 _ (fun k => (qR (q_mul x x) k - hp (qR x) (qR x) k) + (hp (qR x) (qR x) k - hp Y Y k))).
    - eapply Rle_trans; [apply (nrm_plus 4 (fun k => qR (q_mul x x) k - hp (qR x) (qR x) k) (fun k => hp (qR x) (qR x) k - hp Y Y k))|lra].
    - intros k Hk. unfold Y. rewrite (polar_sq d (t / 2) Ud k Hk). replace (2 * (t / 2)) with t by field. ring. }
  pose proof (polar_near d u t h Ud) as PN. eapply close4_weak; [eapply close4_trans; [exact CC|exact PN]| ]. lra.
Qed.
End F.

(** ** doubles *)
#[local] Existing Instance ProofsFloatAngles.prec53.
#[local] Existing Instance ProofsFloatAngles.emax1024.
#[local] Notation f64 := (binary_float 53 1024).
#[local] Notation u53 := (FloatFacts.uro (prec := 53)).

Definition turn_back : Quaternion f64 := q_new (neg one) [| plus0; p600; plus0 |].
Lemma p600_val : B2R p600 = / 2 ^ 600.
Proof.
  unfold p600, B2R, F2R. cbn [cond_Zopp Defs.Fnum Defs.Fexp]. change (IZR 4503599627370496) with (IZR (2 ^ 52)).
  change (IZR (2 ^ 52)) with (bpow radix2 52). rewrite <- bpow_plus. change (52 + -652)%Z with (- (600))%Z. rewrite bpow_opp. f_equal.
  change (bpow radix2 600) with (IZR (2 ^ 600)). rewrite (pow_IZR 2 600). reflexivity.
Qed.

(** close to a whole turn ([cos h] near -1) the logarithm points along the first axis whatever the axis of the rotation is *)
Lemma c103_ln_refuted : forall O : FOracle f64, is_finite (fatan2 plus0 (neg one : f64)) = true -> Rabs (B2R (fatan2 plus0 (neg one : f64)) - PI) <= / 10 ->
  exists (a : Quaternion f64) (u : V3 R) h, v3_dot u u = 1 /\ 0 <= h <= PI /\ 0 < sin h /\ close4 (/ 10 ^ 100) a (polar u h) /\ ~ closev 1 (Quat.q (q_ln a)) (v3_scale u h).
Proof.
  intros O Fa Va. pose proof PI_RGT_0 as P0. assert (P2 : 2 < PI) by (pose proof (PI_ineq 0) as [Q _]; unfold tg_alt, PI_tg in Q; cbn in Q; lra).
  assert (Bn : 0 < B2R p600 <= / 10 ^ 101).
  { rewrite p600_val. split; [apply Rinv_0_lt_compat, pow_lt; lra|apply Rinv_le_contravar; [apply pow_lt; lra| ]]. rewrite !pow_IZR. apply IZR_le. vm_compute. discriminate. }
  assert (Tn : / 10 ^ 101 <= / 1000) by (apply Rinv_le_contravar; [lra| ]; replace 1000 with (10 ^ 3) by ring; apply Rle_pow; [lra|lia]).
  assert (N0 : v3_norm2 ([| plus0; p600; plus0 |] : V3 f64) = plus0) by (apply B2SF_inj; vm_compute; reflexivity).
  assert (NA : q_normalize_a turn_back = (mkQ (neg one) [| plus0; p600; plus0 |] true, q_norm2 turn_back)).
  { unfold q_normalize_a. change (normalized turn_back) with false. cbv iota zeta.
    assert (D0 : div (neg one : f64) (q_norm2 turn_back) = neg one) by (apply B2SF_inj; vm_compute; reflexivity).
    assert (D1 : div p600 (q_norm2 turn_back) = p600) by (apply B2SF_inj; vm_compute; reflexivity).
    assert (D2 : div plus0 (q_norm2 turn_back) = plus0) by (apply B2SF_inj; vm_compute; reflexivity).
    set (n := q_norm2 turn_back) in *. clearbody n.
    change ((mkQ (div (neg one) n) [| div plus0 n; div p600 n; div plus0 n |] true, n) = (mkQ (neg one) [| plus0; p600; plus0 |] true, n)). rewrite D0, D1, D2. reflexivity. }
  assert (LQ : Quat.q (q_ln turn_back) = [| fatan2 plus0 (neg one : f64); zero; zero |]).
  { unfold q_ln. rewrite NA. unfold q_abs_imag, q_imag, q_real. cbv zeta. cbn [Quat.q Quat.q0]. rewrite N0. assert (Lb : ltb (epsilon : f64) plus0 = false) by (vm_compute; reflexivity). rewrite Lb. reflexivity. }
  set (d := B2R p600) in *. destruct (small_trig d ltac:(lra)) as [Kc Ks]. assert (d2 : d * d <= / 1000 * d) by (apply Rmult_le_compat_r; lra). apply Rabs_le_inv in Ks.
  assert (dd : d * (d * d / 2) <= d * (/ 1000)) by (apply Rmult_le_compat_l; lra).
  exists turn_back, ([| 0; 1; 0 |] : V3 R), (PI - d). split; [change (0 * 0 + 1 * 1 + 0 * 0 = 1); ring|split; [lra|split; [rewrite sin_PI_x; lra|split]]].
  - split; [intros k Hk; destruct k as [ |[ |[ |[ |k]]]]; [reflexivity..|lia]| ]. rewrite close4_nrm. eapply Rle_trans; [apply nrm4_split| ].
    assert (X0 : Rabs (qR turn_back 0 - rq (polar [| 0; 1; 0 |] (PI - d)) 0) <= d).
    { change (Rabs (B2R (Bopp (Bone : f64)) - cos (PI - d)) <= d). rewrite B2R_Bopp, Bone_correct. rewrite Rtrigo_facts.cos_pi_minus. apply Rabs_le. lra. }
    assert (X1 : nrm 3 (fun i => qR turn_back (S i) - rq (polar [| 0; 1; 0 |] (PI - d)) (S i)) <= d).
    { apply nrm_le; [lra| ]. unfold sq_sum. lazy [sumn add mul zero R_Num].
      change (0 + (0 - 0 * sin (PI - d)) * (0 - 0 * sin (PI - d)) + (d - 1 * sin (PI - d)) * (d - 1 * sin (PI - d)) + (0 - 0 * sin (PI - d)) * (0 - 0 * sin (PI - d)) <= d * d). rewrite sin_PI_x.
      assert ((d - sin d) * (d - sin d) <= d * d) by nra. lra. }
    cbv beta. assert (Q : / 10 ^ 101 = / 10 ^ 100 / 10) by (replace (10 ^ 101) with (10 ^ 100 * 10) by ring; field; apply pow_nonzero; lra). assert (0 < / 10 ^ 100) by (apply Rinv_0_lt_compat, pow_lt; lra). lra.
  - intros [_ C]. rewrite closev_nrm, LQ in C. pose proof (comp_nrm 3 _ 0 ltac:(lia) : Rabs ((fun k => vR ([| fatan2 plus0 (neg one : f64); zero; zero |] : V3 f64) k - vfun (v3_scale ([| 0; 1; 0 |] : V3 R) (PI - d)) k) 0%nat) <= _) as K.
    assert (K' := Rle_trans _ _ _ K C). change (Rabs (B2R (fatan2 plus0 (neg one : f64)) - 0 * (PI - d)) <= 1) in K'. apply Rabs_le_inv in K'. apply Rabs_le_inv in Va. lra.
Qed.

(** ** cases *)
Lemma crO_explog : explog_ok (O := crO) (2 * u53).
Proof.
  split; [exact crO_atan|split].
  - intros x _ L. change (fexp x) with (near (exp (B2R x))). apply Rabs_le_inv in L. pose proof (exp_pos (B2R x)). pose proof exp_le_3 as E3. assert (exp (B2R x) < exp 1) by (apply exp_increasing; lra).
    destruct (near_ok4 (exp (B2R x)) ltac:(apply Rabs_lt; lra)) as (F & Er & _). split; [exact F|exact Er].
  - intros x _ L. change (fln x) with (near (ln (B2R x))). apply Rabs_le_inv in L. set (r := B2R x) in *. pose proof (exp_ineq1_le (ln r)) as A. pose proof (exp_ineq1_le (- ln r)) as B. rewrite exp_Ropp in B. rewrite exp_ln in A, B by lra.
    assert (/ r <= / (/ 2)) by (apply Rinv_le_contravar; lra). rewrite Rinv_inv in H.
    destruct (near_ok4 (ln r) ltac:(apply Rabs_lt; lra)) as (F & Er & _). split; [exact F|exact Er].
Qed.

#[local] Existing Instance crO.
(** logarithm and square root of the rotation by one radian about the direction (1, 2, 2) *)
Example C103_case_radian : let v := [| fofZ 1; fofZ 2; fofZ 2 |] : V3 f64 in let u := [| 1 / 3; 2 / 3; 2 / 3 |] : V3 R in
  exists q, q_rotation (fofZ 1) v = Ok q /\ closev (/ 10 ^ 13) (Quat.q (q_ln q)) (v3_scale u (/ 2)) /\ close4 (/ 10 ^ 12) (q_exp (q_ln q)) (polar u (/ 2)) /\ close4 (/ 10 ^ 12) (q_mul (q_sqrt q) (q_sqrt q)) (polar u (/ 2)).
Proof.
  intros v u. pose proof uro53 as U. pose proof (uro_pos (prec := 53)) as P. destruct (v122_ok crO) as (Nv & Lv & _). fold v in Nv, Lv.
  destruct (fofZ_int (prec := 53) (emax := 1024) 1 ltac:(cbn; lia)) as [F1 V1]. destruct (fofZ_int (prec := 53) (emax := 1024) 2 ltac:(cbn; lia)) as [F2 V2].
  destruct (rotation_polar (prec := 53) (emax := 1024) ltac:(lia) ltac:(lia) (11 / 10 * u53) (fofZ 1) v F1 Nv (crO_trig _) ltac:(lra)) as (q & Eq & Nq & DU & C).
  match type of DU with v3_dot ?d _ = _ => assert (Du : d = u) end.
  { match type of Lv with ?l = _ => change ([| B2R (fofZ 1 : f64) / l; B2R (fofZ 2 : f64) / l; B2R (fofZ 2 : f64) / l |] = u) end. rewrite Lv. change ([| B2R (fofZ 1 : f64) / 3; B2R (fofZ 2 : f64) / 3; B2R (fofZ 2 : f64) / 3 |] = u). rewrite V1, V2. reflexivity. }
  rewrite Du in C, DU. rewrite V1 in C. change (q_new (cos (1 / 2)) (v3_scale u (sin (1 / 2)))) with (polar u (1 / 2)) in C.
  replace (1 / 2) with (/ 2) in C by lra.
  assert (S4 : 4 / 10 <= sin (/ 2)) by (destruct (small_trig (/ 2) ltac:(lra)) as [_ B]; apply Rabs_le_inv in B; lra).
  assert (Hh : 0 <= / 2 <= PI) by (pose proof PI2_1; lra).
  set (E := 142 / 100 * (11 / 10 * u53) + 5 * u53) in *. assert (LE : E <= 7 * u53) by (unfold E; lra). assert (LE2 : E <= / 60) by lra. assert (Le : 2 * u53 <= / 50) by lra.
  assert (Sp : 0 < sin (/ 2)) by lra.
  destruct (c103_ln (prec := 53) (emax := 1024) ltac:(lia) ltac:(lia) (2 * u53) E q u (/ 2) DU Hh C LE2 crO_explog Le Sp) as (_ & _ & [Fa Va]).
  pose proof (c103_exp_ln (prec := 53) (emax := 1024) ltac:(lia) ltac:(lia) (2 * u53) E q u (/ 2) DU Hh C LE2 crO_explog Le) as X1.
  pose proof (c103_sqrt (prec := 53) (emax := 1024) ltac:(lia) ltac:(lia) (2 * u53) E q u (/ 2) DU Hh C LE2 crO_explog Le) as X2.
  exists q. split; [exact Eq|split; [ |split]].
  - split; [exact Fa|eapply Rle_trans; [exact Va| ]]. apply Rmult_le_reg_r with (sin (/ 2)); [lra| ]. unfold Rdiv. rewrite Rmult_assoc, Rinv_l, Rmult_1_r by lra.
    assert (217 * u53 <= / 10 ^ 13 * (4 / 10)) by (rewrite u53_val; lra). apply Rle_trans with (/ 10 ^ 13 * (4 / 10)); [lra|apply Rmult_le_compat_l; lra].
  - eapply close4_weak; [exact X1| ]. assert (304 * u53 <= / 10 ^ 12) by (rewrite u53_val; lra). lra.
  - eapply close4_weak; [exact X2| ]. assert (436 * u53 <= / 10 ^ 12) by (rewrite u53_val; lra). lra.
Qed.
(** the exponential of three times the second unit *)
Example C103_case_exp : close4 (/ 10 ^ 14) (q_exp (q_new plus0 ([| plus0; fofZ 3; plus0 |] : V3 f64))) (polar [| 0; 1; 0 |] 3).
Proof.
  pose proof (uro_pos (prec := 53)) as P. pose proof uro53 as U. destruct (fofZ_int (prec := 53) (emax := 1024) 3 ltac:(cbn; lia)) as [F3 V3].
  eapply close4_weak; [apply (c103_exp (prec := 53) (emax := 1024) ltac:(lia) ltac:(lia) (2 * u53) 0 0); [change (0 * 0 + 1 * 1 + 0 * 0 = 1); ring|rewrite Rabs_pos_eq; lra| |change (Rabs 0 <= 0); rewrite Rabs_R0; lra|lra| |lra|exact crO_explog|lra]| ].
  - intros k Hk. destruct k as [ |[ |[ |[ |k]]]]; [reflexivity|reflexivity|exact F3|reflexivity|lia].
  - lazy [sumn add zero R_Num]. change (sqrt (0 + (0 - 3 * 0) ^ 2 + (B2R (fofZ 3 : f64) - 3 * 1) ^ 2 + (0 - 3 * 0) ^ 2) <= 0). rewrite V3. replace (0 + (0 - 3 * 0) ^ 2 + (3 - 3 * 1) ^ 2 + (0 - 3 * 0) ^ 2) with 0 by ring. rewrite sqrt_0. lra.
  - assert (72 * u53 <= / 10 ^ 14) by (rewrite u53_val; lra). lra.
Qed.
Example C103_case_ln : exists (a : Quaternion f64) (u : V3 R) h, 0 < sin h /\ close4 (/ 10 ^ 100) a (polar u h) /\ ~ closev 1 (Quat.q (q_ln a)) (v3_scale u h).
Proof.
  assert (Fo : is_finite (neg one : f64) = true) by (vm_compute; reflexivity).
  destruct (proj2 crO_atan plus0 (neg one : f64) eq_refl Fo eq_refl) as [F V]; [right; change (B2R (Bopp (Bone : f64)) <> 0); rewrite B2R_Bopp, Bone_correct; lra| ].
  destruct (c103_ln_refuted crO F) as (a & u & h & _ & _ & H1 & H2 & H3); [ |exists a, u, h; auto].
  replace (Ratan2 (B2R plus0) (B2R (neg one : f64))) with PI in V; [pose proof (uro_pos (prec := 53)); assert (2 * u53 <= / 10) by (rewrite u53_val; lra); lra| ].
  change (B2R (neg one : f64)) with (B2R (Bopp (Bone : f64))). rewrite B2R_Bopp, Bone_correct. change (B2R plus0) with 0. unfold Ratan2. destruct (Rlt_dec 0 (- (1))) as [N|_]; [lra| ]. destruct (Rlt_dec (- (1)) 0) as [_|N]; [ |lra].
  destruct (Rle_dec 0 0) as [_|N]; [ |lra]. unfold Rdiv. rewrite Rmult_0_l, atan_0. lra.
Qed.
