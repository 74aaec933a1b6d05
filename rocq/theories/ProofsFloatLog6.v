(** * ProofsFloatLog6: the logarithm of float rigid motions (C105) *)

From Coq Require Import List Arith ZArith Reals Bool Lra Lia.
From Flocq Require Import Core Relative Sterbenz Mult_error IEEE754.BinarySingleNaN.
From Verif Require Import Base Scalar Vec Mat2 Mat3 Mat4 Mat5 Mat6 Slices MatLoops MatOps Quat Transf DualQuat RingDet Spec LoopFacts Entries InstZ InstR RFacts TrigFacts LUFacts QRFacts ProofsRing ProofsQuat ProofsRot ProofsRigid ProofsEuler ProofsSlerp ProofsQuatR InstF FloatFacts ProofsFloat ProofsFloat2 ProofsFloatErr ProofsFloatInv ProofsFloatNorm ProofsFloatRot ProofsFloatDrift ProofsFloatRigid ProofsFloatDQ ProofsFloatFromRot ProofsFloatRotH ProofsFloatQR ExpSeries ProofsExp ProofsFloatAngles ProofsFloatChain ProofsFloatEuler ProofsFloatLog ProofsFloatScrew ProofsFloatSlerp ProofsFloatAxis ProofsFloatExp ProofsFloatTwist.
Local Open Scope R_scope.

(** ** the coefficient of the square of the logarithm *)
Definition gam (t : R) : R := 1 / t - cos (t / 2) / sin (t / 2) / 2.

Lemma sin_lower x : 0 <= x <= 16 / 10 -> 57 / 100 * x <= sin x.
Proof.
  intros X. destruct (pre_sin_bound x 0 ltac:(lra) ltac:(lra)) as [L _].
  assert (E : sin_approx x (2 * 0 + 1) = x - x * x * x / 6) by (unfold sin_approx, sin_term; cbn; field). rewrite E in L.
  assert (x * x <= 16 / 10 * (16 / 10)) by nra. assert (x * (x * x) <= x * (256 / 100)) by (apply Rmult_le_compat_l; lra). lra.
Qed.

Lemma gam_size t : 0 < t <= PI -> 0 <= gam t <= t / 4.
Proof.
  intros T. pose proof PI_RGT_0 as PP. unfold gam. set (x := t / 2). assert (X : 0 < x <= PI / 2) by (unfold x; lra). replace t with (2 * x) by (unfold x; field).
  assert (S : 0 < sin x) by (apply sin_gt_0; lra). clearbody x. clear T.
  assert (L1 : x * cos x <= sin x).
  { destruct (MVT_cor2 (fun y => sin y - y * cos y) (fun y => y * sin y) 0 x ltac:(lra)) as (c & E & Hc).
    - intros y Hy. replace (y * sin y) with (cos y - (1 * cos y + y * - sin y)) by ring.
      apply derivable_pt_lim_minus; [apply derivable_pt_lim_sin| ]. apply (derivable_pt_lim_mult (fun y => y) cos); [apply derivable_pt_lim_id|apply derivable_pt_lim_cos].
    - cbv beta in E. rewrite sin_0 in E. pose proof (sin_ge_0 c ltac:(lra) ltac:(lra)) as Sc. assert (0 <= c * sin c * (x - 0)) by (apply Rmult_le_pos; [apply Rmult_le_pos; lra|lra]). lra. }
  assert (L2 : sin x - x * cos x <= x * x * sin x).
  { destruct (MVT_cor2 (fun y => y * y * sin y - (sin y - y * cos y)) (fun y => y * sin y + y * y * cos y) 0 x ltac:(lra)) as (c & E & Hc).
    - intros y Hy. replace (y * sin y + y * y * cos y) with (((1 * y + y * 1) * sin y + y * y * cos y) - (cos y - (1 * cos y + y * - sin y))) by ring.
      apply derivable_pt_lim_minus.
      + apply (derivable_pt_lim_mult (fun y => y * y) sin); [ |apply derivable_pt_lim_sin]. apply (derivable_pt_lim_mult (fun y => y) (fun y => y)); apply derivable_pt_lim_id.
      + apply derivable_pt_lim_minus; [apply derivable_pt_lim_sin| ]. apply (derivable_pt_lim_mult (fun y => y) cos); [apply derivable_pt_lim_id|apply derivable_pt_lim_cos].
    - cbv beta in E. rewrite sin_0 in E. pose proof (sin_ge_0 c ltac:(lra) ltac:(lra)) as Sc. pose proof (cos_ge_0 c ltac:(lra) ltac:(lra)) as Cc.
      assert (0 <= (c * sin c + c * c * cos c) * (x - 0)) by (apply Rmult_le_pos; [ |lra]; assert (0 <= c * sin c) by (apply Rmult_le_pos; lra); assert (0 <= c * c * cos c) by (apply Rmult_le_pos; [apply Rmult_le_pos; lra|lra]); lra). lra. }
  replace (1 / (2 * x) - cos x / sin x / 2) with ((sin x - x * cos x) / (2 * (x * sin x))) by (field; lra).
  assert (Q : 0 < x * sin x) by (apply Rmult_lt_0_compat; lra). split.
  - apply Rmult_le_pos; [lra|left; apply Rinv_0_lt_compat; lra].
  - apply (Rmult_le_reg_r (2 * (x * sin x))); [lra| ]. unfold Rdiv at 1. rewrite Rmult_assoc, Rinv_l, Rmult_1_r by lra.
    replace (2 * x / 4 * (2 * (x * sin x))) with (x * x * sin x) by field. exact L2.
Qed.

Lemma cot_lip x y : 0 < sin x -> 0 < sin y -> sin x * sin y * Rabs (cos x / sin x - cos y / sin y) <= Rabs (x - y).
Proof.
  intros X Y. assert (E : cos x / sin x - cos y / sin y = - sin (x - y) / (sin x * sin y)) by (rewrite sin_minus; field; lra).
  rewrite E. unfold Rdiv. rewrite Rabs_mult, Rabs_Ropp, (Rabs_pos_eq (/ (sin x * sin y))) by (left; apply Rinv_0_lt_compat, Rmult_lt_0_compat; assumption).
  replace (sin x * sin y * (Rabs (sin (x - y)) * / (sin x * sin y))) with (Rabs (sin (x - y))) by (field; lra). apply sin_abs.
Qed.

Section F.
Context {prec emax : Z} {Hp : Prec_gt_0 prec} {He : Prec_lt_emax prec emax} {O : FOracle (binary_float prec emax)}.
Notation fl := (binary_float prec emax).
Notation uro := (uro (prec := prec)).
Notation eta := (eta (prec := prec) (emax := emax)).
Hypothesis Hp11 : (11 <= prec)%Z.
Hypothesis He4 : (4 * prec <= emax)%Z.

(** the tangent is computed with a relative error of [e] on the open first quadrant *)
Definition tan_ok (e : R) : Prop := forall x : fl, is_finite x = true -> uro <= B2R x -> B2R x < PI / 2 -> uro <= cos (B2R x) ->
  is_finite (ftan x) = true /\ Rabs (B2R (ftan x) - tan (B2R x)) <= e * tan (B2R x).

Lemma inv_uro : / uro <= bpow radix2 (emax - 10).
Proof.
  unfold FloatFacts.uro. replace (/ 2 * bpow radix2 (1 - prec)) with (bpow radix2 (- prec)).
  - rewrite <- bpow_opp. apply bpow_le. lia.
  - replace (1 - prec)%Z with (1 + - prec)%Z by ring. rewrite bpow_plus. change (bpow radix2 1) with 2. field.
Qed.

Definition gam_fl (th : fl) : fl := sub (div one th) (div (div one (ftan (div th (add one one)))) (add one one)).

Lemma gam_near (th : fl) t e dl : is_finite th = true -> 0 < t < PI -> Rabs (B2R th - t) <= dl -> tan_ok e -> 0 <= e -> 40 * e <= t -> e <= / 100 -> 40 * dl <= t -> 40 * dl <= t * t -> 40 * dl <= PI - t -> 5 * uro <= dl ->
  is_finite (gam_fl th) = true /\ Rabs (B2R (gam_fl th) - gam t) <= 43 / 10 * dl / (t * t) + (2 * e + 6 * uro) / t.
Proof.
  intros Fth T Dt TO e0 Le40 Le Ld1 Ld2 Ld3 Lu. pose proof (uro_small Hp11) as U. pose proof (uro_pos (prec := prec)) as P. pose proof (eta_tiny Hp11 He4) as Ht. assert (T0 : 0 <= eta) by apply eta_pos.
  pose proof pi_32 as P3. destruct (two_val (emax := emax) Hp11) as [F2 V2]. destruct (one_val (prec := prec) (emax := emax)) as [F1 V1].
  destruct (big_b Hp11 He4) as (b & Eb & B1 & BE). pose proof inv_uro as IU. rewrite <- Eb in IU.
  pose proof (Rabs_le_inv _ _ Dt) as Dt'. set (t' := B2R th) in *.
  assert (it : 0 < / t) by (apply Rinv_0_lt_compat; lra). assert (it1 : 1 <= 32 / 10 * / t) by (apply (Rmult_le_reg_r t); [lra| ]; rewrite Rmult_assoc, Rinv_l by lra; lra).
  (* the half angle *)
  destruct (half_div Hp11 He4 th (add one one) Fth F2 V2) as [Fh Eh]. set (h := div th (add one one)) in *. fold t' in Eh. set (x := B2R h) in *.
  assert (Hx : Rabs (x - t / 2) <= 5001 / 10000 * dl) by (apply Rabs_le_inv in Eh; apply Rabs_le; lra). pose proof (Rabs_le_inv _ _ Hx) as Hx'.
  assert (X1 : 487 / 1000 * t <= x) by lra. assert (X2 : x <= 16 / 10) by lra. assert (X3 : x < PI / 2) by lra.
  assert (S1 : 285 / 1000 * t <= sin (t / 2)) by (pose proof (sin_lower (t / 2) ltac:(lra)); lra).
  assert (S2 : 277 / 1000 * t <= sin x) by (pose proof (sin_lower x ltac:(lra)); lra).
  assert (CX : uro <= cos x).
  { rewrite <- sin_shift. pose proof (sin_lower (PI / 2 - x) ltac:(lra)). lra. }
  assert (cx1 : cos x <= 1) by apply COS_bound.
  destruct (TO h Fh ltac:(fold x; lra) X3 CX) as [Ft Et]. fold x in Et. set (tf := ftan h) in *. assert (sx : 0 < sin x) by lra. assert (sx0 : 0 < sin (t / 2)) by lra. assert (cx : 0 < cos x) by lra.
  assert (TX : tan x = sin x / cos x) by reflexivity. assert (tx0 : 0 < tan x) by (rewrite TX; apply Rdiv_lt_0_compat; assumption).
  pose proof (Rabs_le_inv _ _ Et) as Et'. assert (tf0 : 99 / 100 * tan x <= B2R tf) by (assert (e * tan x <= / 100 * tan x) by (apply Rmult_le_compat_r; lra); lra).
  set (ct := cos x / sin x). assert (CT : ct = / tan x) by (unfold ct; rewrite TX; field; lra). assert (ct0 : 0 < ct) by (rewrite CT; apply Rinv_0_lt_compat, tx0).
  assert (ctL : ct <= 3611 / 1000 * / t).
  { unfold ct. apply Rle_trans with (1 * / (277 / 1000 * t)).
    - unfold Rdiv. apply Rmult_le_compat; [lra|left; apply Rinv_0_lt_compat, sx|exact cx1|apply Rinv_le_contravar; lra].
    - replace (1 * / (277 / 1000 * t)) with (1000 / 277 * / t) by (field; lra). apply Rmult_le_compat_r; lra. }
  (* its cotangent *)
  assert (Ng : exists g, 1 / B2R tf = ct * (1 + g) /\ Rabs g <= 102 / 100 * e).
  { exists (tan x / B2R tf - 1). split; [rewrite CT; field; lra| ]. replace (tan x / B2R tf - 1) with ((tan x - B2R tf) / B2R tf) by (field; lra).
    unfold Rdiv. rewrite Rabs_mult, (Rabs_pos_eq (/ B2R tf)) by (left; apply Rinv_0_lt_compat; lra). apply (Rmult_le_reg_r (B2R tf)); [lra| ]. rewrite Rmult_assoc, Rinv_l, Rmult_1_r by lra.
    rewrite Rabs_minus_sym. eapply Rle_trans; [exact Et| ]. assert (102 / 100 * e * (99 / 100 * tan x) <= 102 / 100 * e * B2R tf) by (apply Rmult_le_compat_l; lra). assert (0 <= e * tan x) by (apply Rmult_le_pos; lra). lra. }
  destruct Ng as (g & Eg & Lg). assert (Bg : Rabs (1 + g) <= 1011 / 1000) by (eapply Rle_trans; [apply Rabs_triang|rewrite Rabs_R1; lra]).
  assert (itb : / t <= / 200 * b).
  { apply Rle_trans with (/ (200 * uro)); [apply Rinv_le_contravar; lra| ]. replace (/ (200 * uro)) with (/ 200 * / uro) by (field; lra). lra. }
  assert (B1' : Rabs (B2R (one : fl) / B2R tf) <= b).
  { rewrite V1, Eg, Rabs_mult, (Rabs_pos_eq ct) by lra. assert (ct * Rabs (1 + g) <= (3611 / 1000 * / t) * (1011 / 1000)) by (apply Rmult_le_compat; try lra; apply Rabs_pos). lra. }
  assert (NZ1 : B2R tf <> 0) by lra.
  destruct (div_big Hp11 He4 one tf F1 NZ1 ltac:(rewrite BE; lra)) as (Fc & e1 & h1 & L1 & Lh1 & Ec). change (Bdiv mode_NE one tf) with (div one tf) in Fc, Ec. set (cf := div one tf) in *. rewrite V1, Eg in Ec.
  assert (Ec1 : Rabs (B2R cf - ct) <= (103 / 100 * e + 102 / 100 * uro) * ct + eta).
  { rewrite Ec. replace (ct * (1 + g) * (1 + e1) + h1 - ct) with (ct * (g + e1 * (1 + g)) + h1) by ring. eapply Rle_trans; [apply Rabs_triang| ]. apply Rplus_le_compat; [ |exact Lh1].
    rewrite Rabs_mult, (Rabs_pos_eq ct), Rmult_comm by lra. apply Rmult_le_compat_r; [lra| ]. eapply Rle_trans; [apply Rabs_triang| ]. rewrite Rabs_mult.
    assert (Rabs e1 * Rabs (1 + g) <= uro * (1011 / 1000)) by (apply Rmult_le_compat; try apply Rabs_pos; assumption). lra. }
  destruct (half_div Hp11 He4 cf (add one one) Fc F2 V2) as [Fk Ek]. set (kf := div cf (add one one)) in *.
  (* the reciprocal of the angle *)
  assert (t1 : 975 / 1000 * t <= t') by lra. assert (NZ2 : t' <> 0) by lra.
  assert (Rt : 0 < / t' <= 1026 / 1000 * / t).
  { split; [apply Rinv_0_lt_compat; lra| ]. apply Rle_trans with (/ (975 / 1000 * t)); [apply Rinv_le_contravar; lra| ]. replace (/ (975 / 1000 * t)) with (1000 / 975 * / t) by (field; lra). apply Rmult_le_compat_r; lra. }
  assert (B2' : Rabs (B2R (one : fl) / B2R th) <= b) by (rewrite V1; fold t'; unfold Rdiv; rewrite Rmult_1_l, Rabs_pos_eq by lra; lra).
  destruct (div_big Hp11 He4 one th F1 NZ2 ltac:(rewrite BE; lra)) as (Fr & e2 & h2 & L2 & Lh2 & Er). change (Bdiv mode_NE one th) with (div one th) in Fr, Er. set (rf := div one th) in *. rewrite V1 in Er. fold t' in Er.
  assert (Dr : Rabs (1 / t' - 1 / t) <= 1026 / 1000 * (dl * (/ t * / t))).
  { replace (1 / t' - 1 / t) with ((t - t') * (/ t' * / t)) by (field; lra). rewrite Rabs_mult, (Rabs_minus_sym t t'), (Rabs_pos_eq (/ t' * / t)) by (apply Rmult_le_pos; lra).
    replace (1026 / 1000 * (dl * (/ t * / t))) with (dl * ((1026 / 1000 * / t) * / t)) by ring. apply Rmult_le_compat; [apply Rabs_pos|apply Rmult_le_pos; lra|exact Dt| ]. apply Rmult_le_compat_r; lra. }
  assert (Er1 : Rabs (B2R rf - 1 / t') <= 1026 / 1000 * uro * / t + eta).
  { rewrite Er. replace (1 / t' * (1 + e2) + h2 - 1 / t') with (e2 * / t' + h2) by (field; exact NZ2). eapply Rle_trans; [apply Rabs_triang| ]. apply Rplus_le_compat; [ |exact Lh2].
    rewrite Rabs_mult, (Rabs_pos_eq (/ t')) by lra. replace (1026 / 1000 * uro * / t) with (uro * (1026 / 1000 * / t)) by ring. apply Rmult_le_compat; try lra. apply Rabs_pos. }
  (* cotangents of near angles *)
  assert (Dc : Rabs (ct - cos (t / 2) / sin (t / 2)) <= 634 / 100 * (dl * (/ t * / t))).
  { pose proof (cot_lip x (t / 2) sx sx0) as CL. fold ct in CL. set (Q := Rabs (ct - cos (t / 2) / sin (t / 2))) in *. assert (Q0 : 0 <= Q) by apply Rabs_pos.
    assert (SS : (277 / 1000 * t) * (285 / 1000 * t) <= sin x * sin (t / 2)) by (apply Rmult_le_compat; lra).
    assert (A : (277 / 1000 * t) * (285 / 1000 * t) * Q <= 5001 / 10000 * dl) by (eapply Rle_trans; [apply Rmult_le_compat_r; [exact Q0|exact SS]|lra]).
    assert (tt : 0 < t * t) by (apply Rmult_lt_0_compat; lra). apply (Rmult_le_reg_r (t * t)); [exact tt| ]. replace (634 / 100 * (dl * (/ t * / t)) * (t * t)) with (634 / 100 * dl) by (field; lra). lra. }
  (* the difference *)
  set (A := dl * (/ t * / t)) in *. assert (A0 : 0 <= A <= / 40).
  { split; [apply Rmult_le_pos; [lra|apply Rmult_le_pos; lra]| ]. unfold A. apply (Rmult_le_reg_r (t * t)); [apply Rmult_lt_0_compat; lra| ]. replace (dl * (/ t * / t) * (t * t)) with dl by (field; lra). lra. }
  assert (eit : e * / t <= / 40) by (apply (Rmult_le_reg_r t); [lra| ]; rewrite Rmult_assoc, Rinv_l, Rmult_1_r by lra; lra).
  assert (uit : uro * / t <= / 200) by (apply (Rmult_le_reg_r t); [lra| ]; rewrite Rmult_assoc, Rinv_l, Rmult_1_r by lra; lra).
  assert (eit0 : 0 <= e * / t) by (apply Rmult_le_pos; lra). assert (uit0 : 0 <= uro * / t) by (apply Rmult_le_pos; lra).
  assert (etat : eta <= / 3000 * (uro * / t)) by (assert (uro * 1 <= uro * (32 / 10 * / t)) by (apply Rmult_le_compat_l; lra); lra).
  assert (ec : (103 / 100 * e + 102 / 100 * uro) * ct <= 372 / 100 * (e * / t) + 3684 / 1000 * (uro * / t)).
  { eapply Rle_trans; [apply Rmult_le_compat_l; [lra|exact ctL]| ]. lra. }
  assert (Dk : Rabs (B2R kf - cos (t / 2) / sin (t / 2) / 2) <= 317 / 100 * A + 186 / 100 * (e * / t) + 1843 / 1000 * (uro * / t)).
  { apply Rabs_le_inv in Ek. apply Rabs_le_inv in Dc. apply Rabs_le_inv in Ec1. apply Rabs_le. lra. }
  assert (Dr2 : Rabs (B2R rf - 1 / t) <= 1026 / 1000 * A + 1027 / 1000 * (uro * / t)) by (apply Rabs_le_inv in Dr; apply Rabs_le_inv in Er1; apply Rabs_le; lra).
  pose proof (gam_size t ltac:(lra)) as GS. unfold gam in GS |- *.
  assert (DD : Rabs (B2R rf - B2R kf - (1 / t - cos (t / 2) / sin (t / 2) / 2)) <= 4196 / 1000 * A + 186 / 100 * (e * / t) + 287 / 100 * (uro * / t)) by (apply Rabs_le_inv in Dk; apply Rabs_le_inv in Dr2; apply Rabs_le; lra).
  pose proof (Rabs_le_inv _ _ DD) as DD'. assert (BD : Rabs (B2R rf - B2R kf) <= 97 / 100) by (apply Rabs_le; lra).
  destruct (sub_ok Hp11 He4 rf kf Fr Fk ltac:(lra)) as [Fg Eg']. change (gam_fl th) with (sub rf kf). split; [exact Fg| ].
  assert (uro * Rabs (B2R rf - B2R kf) <= uro * (97 / 100 * (32 / 10 * / t))) by (apply Rmult_le_compat_l; lra).
  assert (E1 : 43 / 10 * dl / (t * t) = 43 / 10 * A) by (unfold A; field; lra). assert (E2 : (2 * e + 6 * uro) / t = 2 * (e * / t) + 6 * (uro * / t)) by (field; lra). rewrite E1, E2.
  apply Rabs_le_inv in Eg'. apply Rabs_le. lra.
Qed.

(** products of matrices of moderate entries, and quotients *)
Lemma fm_mul_big (a b : M33 fl) : finm a -> finm b -> (forall i j, (i < 3)%nat -> (j < 3)%nat -> Rabs (mR a i j) <= 32) -> (forall i j, (i < 3)%nat -> (j < 3)%nat -> Rabs (mR b i j) <= 32) ->
  finm (m33_mul a b) /\ dst (mR (m33_mul a b)) (mm (mR a) (mR b)) <= 301 / 100 * uro * (fnorm (mR a) * fnorm (mR b)) + 12 * eta.
Proof.
  intros F F' B B'. pose proof (uro_pos (prec := prec)) as P. assert (T0 : 0 <= eta) by apply eta_pos.
  assert (L : forall i j, (i < 3)%nat -> (j < 3)%nat -> is_finite (mfun (m33_mul a b) i j) = true /\
    Rabs (mR (m33_mul a b) i j - mm (mR a) (mR b) i j) <= 301 / 100 * uro * aap (mR a) (fun k => mR b k j) i + 4 * eta).
  { intros i j Hi Hj. rewrite (mfun_mul a b i j Hi Hj). unfold mR at 1. rewrite (mfun_mul a b i j Hi Hj).
    destruct (big_b Hp11 He4) as (g & Eb & B1 & _). assert (G16 : 16 <= g) by (rewrite Eb; change 16 with (bpow radix2 4); apply bpow_le; lia).
    assert (V : forall k, (k < 3)%nat -> vfun ([| mfun b 0 j; mfun b 1 j; mfun b 2 j |] : V3 fl) k = mfun b k j) by (intros k Hk; destruct k as [ |[ |[ |k]]]; [reflexivity..|lia]).
    destruct (linear_big Hp11 He4 a [| mfun b 0 j; mfun b 1 j; mfun b 2 j |] g Eb) with (i := i) as [G1 G2]; [ | |exact Hi|split; [exact G1|exact G2]].
    - intros x c Hx Hc. split; [exact (F x c Hx Hc)|exact (B x c Hx Hc)].
    - intros k Hk. unfold vR. rewrite (V k Hk). split; [exact (F' k j Hk Hj)| ]. pose proof (B' k j Hk Hj) as A. unfold mR in A. lra. }
  split; [intros i j Hi Hj; apply (L i j Hi Hj)| ].
  unfold dst. eapply Rle_trans; [apply (fnorm_mono _ (fun i j => 301 / 100 * uro * aap (mR a) (fun k => mR b k j) i + 4 * eta)); intros i j Hi Hj; apply (L i j Hi Hj)| ].
  eapply Rle_trans; [apply (fnorm_plus (fun i j => 301 / 100 * uro * aap (mR a) (fun k => mR b k j) i) (fun _ _ => 4 * eta))| ].
  rewrite (fnorm_scal (301 / 100 * uro) (fun i j => aap (mR a) (fun k => mR b k j) i)), Rabs_pos_eq by lra.
  pose proof (fnorm_aap (mR a) (mR b)) as A.
  assert (A3 : fnorm (fun _ _ => 4 * eta) <= 3 * (4 * eta)) by (apply fnorm_all; [lra|intros; rewrite Rabs_pos_eq by lra; lra]).
  apply Rplus_le_compat; [ |lra]. apply Rmult_le_compat_l; lra.
Qed.

Lemma mfun_div (m : M33 fl) (s : fl) i j : (i < 3)%nat -> (j < 3)%nat -> mfun (m33_div m s) i j = div (mfun m i j) s.
Proof. intros Hi Hj. destruct m as ((r00&r01&r02&[])&(r10&r11&r12&[])&(r20&r21&r22&[])&[]). ij i j Hi Hj; reflexivity. Qed.

Lemma fm_div (m : M33 fl) (s : fl) : finm m -> 0 < B2R s -> / B2R s * fnorm (mR m) <= 100 ->
  finm (m33_div m s) /\ dst (mR (m33_div m s)) (fun i j => / B2R s * mR m i j) <= uro * (/ B2R s * fnorm (mR m)) + 3 * eta.
Proof.
  intros F S L. pose proof (uro_pos (prec := prec)) as P. assert (T0 : 0 <= eta) by apply eta_pos. assert (is : 0 < / B2R s) by apply Rinv_0_lt_compat, S.
  destruct (big_b Hp11 He4) as (g & Eb & B1 & BE).
  assert (G : forall i j, (i < 3)%nat -> (j < 3)%nat -> is_finite (mfun (m33_div m s) i j) = true /\ Rabs (mR (m33_div m s) i j - / B2R s * mR m i j) <= uro * / B2R s * Rabs (mR m i j) + eta).
  { intros i j Hi Hj. unfold mR at 1. rewrite (mfun_div m s i j Hi Hj). pose proof (fnorm_entry (mR m) i j Hi Hj) as En.
    assert (Bq : Rabs (B2R (mfun m i j) / B2R s) <= 100).
    { unfold Rdiv. rewrite Rabs_mult, (Rabs_pos_eq (/ B2R s)), Rmult_comm by lra. eapply Rle_trans; [apply Rmult_le_compat_l; [lra|exact En]|exact L]. }
    assert (NZ : B2R s <> 0) by lra.
    destruct (div_big Hp11 He4 (mfun m i j) s (F i j Hi Hj) NZ ltac:(rewrite BE; lra)) as (Fd & e & h & Le & Lh & E). change (Bdiv mode_NE (mfun m i j) s) with (div (mfun m i j) s) in Fd, E.
    split; [exact Fd| ]. rewrite E. fold (mR m i j). unfold Rdiv. replace (mR m i j * / B2R s * (1 + e) + h - / B2R s * mR m i j) with (e * (/ B2R s * mR m i j) + h) by ring.
    eapply Rle_trans; [apply Rabs_triang| ]. apply Rplus_le_compat; [ |exact Lh]. rewrite !Rabs_mult, (Rabs_pos_eq (/ B2R s)), Rmult_assoc by lra.
    apply Rmult_le_compat_r; [apply Rmult_le_pos; [lra|apply Rabs_pos]|exact Le]. }
  split; [intros i j Hi Hj; apply (G i j Hi Hj)| ]. unfold dst.
  eapply Rle_trans; [apply (fnorm_mono _ (fun i j => uro * / B2R s * Rabs (mR m i j) + eta)); intros i j Hi Hj; apply (G i j Hi Hj)| ].
  eapply Rle_trans; [apply (fnorm_plus (fun i j => uro * / B2R s * Rabs (mR m i j)) (fun _ _ => eta))| ].
  rewrite (fnorm_scal (uro * / B2R s) (fun i j => Rabs (mR m i j))), Rabs_pos_eq by (apply Rmult_le_pos; lra). rewrite fnorm_abs.
  assert (A3 : fnorm (fun _ _ => eta) <= 3 * eta) by (apply fnorm_all; [lra|intros; rewrite Rabs_pos_eq by lra; lra]). lra.
Qed.
Lemma fm_half (m : M33 fl) : finm m -> finm (m33_div m (add one one)) /\ dst (mR (m33_div m (add one one))) (fun i j => / 2 * mR m i j) <= 3 * eta.
Proof.
  intros F. destruct (two_val (emax := emax) Hp11) as [F2 V2]. assert (T0 : 0 <= eta) by apply eta_pos.
  assert (G : forall i j, (i < 3)%nat -> (j < 3)%nat -> is_finite (mfun (m33_div m (add one one)) i j) = true /\ Rabs (mR (m33_div m (add one one)) i j - / 2 * mR m i j) <= eta).
  { intros i j Hi Hj. unfold mR at 1. rewrite (mfun_div m (add one one) i j Hi Hj). destruct (half_div Hp11 He4 (mfun m i j) (add one one) (F i j Hi Hj) F2 V2) as [Fh Eh].
    split; [exact Fh| ]. fold (mR m i j) in Eh. replace (/ 2 * mR m i j) with (mR m i j / 2) by field. exact Eh. }
  split; [intros i j Hi Hj; apply (G i j Hi Hj)| ]. unfold dst. apply fnorm_all; [exact T0|intros i j Hi Hj; apply (G i j Hi Hj)].
Qed.

(** ** the matrix that takes the translation to the linear velocity *)
Definition jinv_fl (W : M33 fl) (th : fl) : M33 fl :=
  m33_add (m33_sub m33_identity (m33_div W (add one one))) (m33_div (m33_scale (m33_mul W W) (gam_fl th)) th).
Definition jinvR (a : V3 R) (t : R) (i j : nat) : R :=
  (dlt i j - / 2 * (t * mfun (skew_from_vec a) i j)) + / t * (gam t * (t * t * mm (mfun (skew_from_vec a)) (mfun (skew_from_vec a)) i j)).

Lemma jinv_core (a : V3 R) t d (W : M33 fl) (th : fl) : v3_dot a a = 1 -> 0 < t < PI -> close3 d W (skew_from_vec (v3_scale a t)) -> 60 * uro <= d -> 10 * d <= t ->
  is_finite th = true -> Rabs (B2R th - t) <= 12 / 100 * (d * t) -> is_finite (gam_fl th) = true -> Rabs (B2R (gam_fl th) - gam t) <= 64 / 100 * (d / t) ->
  finm (jinv_fl W th) /\ dst (mR (jinv_fl W th)) (jinvR a t) <= 56 / 10 * d /\ fnorm (jinvR a t) <= 77 / 10 /\ fnorm (mR (jinv_fl W th)) <= 96 / 10.
Proof.
  intros Ua T [FW CW] Lu Ld Fth Eth Fg Eg. rewrite close_dst in CW. fold (finm W) in FW. destruct (skew_sizes a Ua) as (BK & BK2 & KE).
  pose proof (uro_small Hp11) as U. pose proof (uro_pos (prec := prec)) as P. pose proof (eta_tiny Hp11 He4) as Ht. pose proof (eta_sq Hp11 He4) as Hs. assert (T0 : 0 <= eta) by apply eta_pos.
  pose proof pi_32 as P3. pose proof (gam_size t ltac:(lra)) as GS. unfold jinvR. set (K := mfun (skew_from_vec a)) in *. set (ga := gam t) in *. set (gf := gam_fl th) in *. set (t' := B2R th) in *.
  assert (DW : dst (mR W) (fun i j => t * K i j) <= d).
  { eapply Rle_trans; [ |exact CW]. apply Req_le. unfold dst. apply fnorm_ext. intros i j Hi Hj. rewrite (skew_scaled a t i j Hi Hj). reflexivity. } clear CW.
  assert (td : 0 < t * d) by (apply Rmult_lt_0_compat; lra). assert (t3 : t <= 32 / 10) by lra.
  assert (it : 0 < / t) by (apply Rinv_0_lt_compat; lra). assert (dit : d / t <= / 10) by (unfold Rdiv; apply (Rmult_le_reg_r t); [lra| ]; rewrite Rmult_assoc, Rinv_l, Rmult_1_r by lra; lra).
  assert (utt : uro * (t * t) <= 534 / 10000 * (t * d)).
  { assert (uro * t <= uro * (32 / 10)) by (apply Rmult_le_compat_l; lra). assert (t * (uro * t) <= t * (534 / 10000 * d)) by (apply Rmult_le_compat_l; lra). lra. }
  assert (ett : eta <= / 100000 * (t * d)).
  { assert (uro * uro <= (t / 10) * d) by (apply Rmult_le_compat; lra). lra. }
  pose proof (fnorm_pos K) as K0. pose proof (fnorm_pos (mm K K)) as K20.
  assert (NtK : fnorm (fun i j => t * K i j) <= 14143 / 10000 * t) by (rewrite (fnorm_scal t K), Rabs_pos_eq by lra; assert (t * fnorm K <= t * (14143 / 10000)) by (apply Rmult_le_compat_l; lra); lra).
  assert (BW : fnorm (mR W) <= 15143 / 10000 * t) by (eapply Rle_trans; [apply (fnorm_dst _ (fun i j => t * K i j))|lra]). pose proof (fnorm_pos (mR W)) as W0.
  (* the square *)
  assert (WE : forall i j, (i < 3)%nat -> (j < 3)%nat -> Rabs (mR W i j) <= 32) by (intros i j Hi Hj; pose proof (fnorm_entry (mR W) i j Hi Hj); lra).
  destruct (fm_mul_big W W FW FW WE WE) as [F2 E2]. set (P2 := m33_mul W W) in *. pose proof (dst_pos (mR W) (fun i j => t * K i j)) as D0.
  assert (tt0 : 0 <= t * t) by (apply Rmult_le_pos; lra).
  assert (Q2 : dst (mR P2) (fun i j => t * t * mm K K i j) <= 331 / 100 * (t * d)).
  { eapply Rle_trans; [apply (dst_tri _ (mm (mR W) (mR W)))| ].
    assert (X : dst (mm (mR W) (mR W)) (fun i j => t * t * mm K K i j) <= fnorm (mR W) * dst (mR W) (fun i j => t * K i j) + dst (mR W) (fun i j => t * K i j) * fnorm (fun i j => t * K i j)).
    { unfold dst. rewrite (fnorm_ext _ (fun i j => mm (mR W) (fun i j => mR W i j - t * K i j) i j + mm (fun i j => mR W i j - t * K i j) (fun i j => t * K i j) i j)) by (intros; unfold mm; ring).
      eapply Rle_trans; [apply fnorm_plus| ]. apply Rplus_le_compat; apply fnorm_mm. }
    assert (Y1 : fnorm (mR W) * dst (mR W) (fun i j => t * K i j) <= (15143 / 10000 * t) * d) by (apply Rmult_le_compat; lra).
    assert (Y2 : dst (mR W) (fun i j => t * K i j) * fnorm (fun i j => t * K i j) <= d * (14143 / 10000 * t)) by (apply Rmult_le_compat; try lra; apply fnorm_pos).
    assert (Y3 : fnorm (mR W) * fnorm (mR W) <= (15143 / 10000 * t) * (15143 / 10000 * t)) by (apply Rmult_le_compat; lra).
    assert (301 / 100 * uro * (fnorm (mR W) * fnorm (mR W)) <= 301 / 100 * uro * ((15143 / 10000 * t) * (15143 / 10000 * t))) by (apply Rmult_le_compat_l; lra). lra. }
  assert (tdt : t * d <= / 10 * (t * t)) by (assert (t * (10 * d) <= t * t) by (apply Rmult_le_compat_l; lra); lra).
  assert (NX2 : fnorm (fun i j => t * t * mm K K i j) <= 14143 / 10000 * (t * t)) by (rewrite (fnorm_scal (t * t) (mm K K)), Rabs_pos_eq by lra; assert (t * t * fnorm (mm K K) <= t * t * (14143 / 10000)) by (apply Rmult_le_compat_l; lra); lra).
  assert (B2 : fnorm (mR P2) <= 17453 / 10000 * (t * t)) by (eapply Rle_trans; [apply (fnorm_dst _ (fun i j => t * t * mm K K i j))|lra]).
  (* scaled *)
  pose proof (Rabs_le_inv _ _ Eg) as Eg'. assert (Bg : Rabs (B2R gf) <= 87 / 100) by (apply Rabs_le; lra).
  assert (tt3 : t * t <= 1024 / 100) by (assert (t * t <= (32 / 10) * (32 / 10)) by (apply Rmult_le_compat; lra); lra).
  destruct (scale_near Hp11 He4 P2 gf (fun i j => t * t * mm K K i j) ga _ _ (17453 / 10000 * (t * t)) (87 / 100) F2 Fg Q2 Eg B2 ltac:(lra) Bg ltac:(lra)) as [F3 Q3]. set (P3' := m33_scale P2 gf) in *.
  assert (dtt : d / t * (t * t) = t * d) by (field; lra).
  assert (Q3' : dst (mR P3') (fun i j => ga * (t * t * mm K K i j)) <= 41 / 10 * (t * d)).
  { eapply Rle_trans; [exact Q3| ]. replace (64 / 100 * (d / t) * (17453 / 10000 * (t * t))) with (64 / 100 * (17453 / 10000) * (d / t * (t * t))) by ring. rewrite dtt. lra. } clear Q3.
  assert (NX3 : fnorm (fun i j => ga * (t * t * mm K K i j)) <= 363 / 100 * t).
  { rewrite (fnorm_scal ga (fun i j => t * t * mm K K i j)), Rabs_pos_eq by lra.
    assert (Z : ga * fnorm (fun i j => t * t * mm K K i j) <= t / 4 * (14143 / 10000 * (t * t))) by (apply Rmult_le_compat; try lra; apply fnorm_pos).
    assert (t * (t * t) <= t * (1024 / 100)) by (apply Rmult_le_compat_l; lra). lra. }
  assert (N3 : fnorm (mR P3') <= 495 / 100 * t) by (eapply Rle_trans; [apply (fnorm_dst _ (fun i j => ga * (t * t * mm K K i j)))| ]; assert (t * d <= t * (32 / 100)) by (apply Rmult_le_compat_l; lra); lra).
  pose proof (fnorm_pos (mR P3')) as N30.
  (* divided by the angle *)
  pose proof (Rabs_le_inv _ _ Eth) as Eth'. assert (tdd : t * d <= t * (32 / 100)) by (apply Rmult_le_compat_l; lra). assert (th0 : 961 / 1000 * t <= t') by lra.
  assert (Rt : 0 < / t' <= 1041 / 1000 * / t).
  { split; [apply Rinv_0_lt_compat; lra| ]. apply Rle_trans with (/ (961 / 1000 * t)); [apply Rinv_le_contravar; lra| ]. replace (/ (961 / 1000 * t)) with (1000 / 961 * / t) by (field; lra). apply Rmult_le_compat_r; lra. }
  assert (L4 : / t' * fnorm (mR P3') <= 516 / 100).
  { eapply Rle_trans; [apply Rmult_le_compat; [lra|exact N30|apply Rt|exact N3]| ]. replace (1041 / 1000 * / t * (495 / 100 * t)) with (1041 / 1000 * (495 / 100)) by (field; lra). lra. }
  destruct (fm_div P3' th F3 ltac:(fold t'; lra) ltac:(fold t'; lra)) as [F4 E4]. fold t' in E4. set (P4 := m33_div P3' th) in *.
  assert (Q4 : dst (mR P4) (fun i j => / t * (ga * (t * t * mm K K i j))) <= 482 / 100 * d).
  { eapply Rle_trans; [apply (dst_tri _ (fun i j => / t' * mR P3' i j))| ].
    assert (X : dst (fun i j => / t' * mR P3' i j) (fun i j => / t * (ga * (t * t * mm K K i j))) <= Rabs (/ t' - / t) * fnorm (mR P3') + / t * (41 / 10 * (t * d))).
    { unfold dst. rewrite (fnorm_ext _ (fun i j => (/ t' - / t) * mR P3' i j + / t * (mR P3' i j - ga * (t * t * mm K K i j)))) by (intros; ring).
      eapply Rle_trans; [apply (fnorm_plus (fun i j => (/ t' - / t) * mR P3' i j) (fun i j => / t * (mR P3' i j - ga * (t * t * mm K K i j))))| ].
      rewrite (fnorm_scal (/ t' - / t) (mR P3')), (fnorm_scal (/ t) (fun i j => mR P3' i j - ga * (t * t * mm K K i j))), (Rabs_pos_eq (/ t)) by lra.
      fold (dst (mR P3') (fun i j => ga * (t * t * mm K K i j))). apply Rplus_le_compat_l, Rmult_le_compat_l; lra. }
    assert (Y : Rabs (/ t' - / t) * fnorm (mR P3') <= 62 / 100 * d).
    { replace (/ t' - / t) with ((t - t') * (/ t' * / t)) by (field; lra). rewrite Rabs_mult, (Rabs_minus_sym t t'), (Rabs_pos_eq (/ t' * / t)), Rmult_assoc by (apply Rmult_le_pos; lra).
      replace (/ t' * / t * fnorm (mR P3')) with (/ t * (/ t' * fnorm (mR P3'))) by ring.
      apply Rle_trans with (12 / 100 * (d * t) * (/ t * (516 / 100))).
      - apply Rmult_le_compat; [apply Rabs_pos|apply Rmult_le_pos; [lra|apply Rmult_le_pos; lra]|exact Eth|apply Rmult_le_compat_l; lra].
      - replace (12 / 100 * (d * t) * (/ t * (516 / 100))) with (12 / 100 * (516 / 100) * d) by (field; lra). lra. }
    replace (/ t * (41 / 10 * (t * d))) with (41 / 10 * d) in X by (field; lra).
    assert (uro * (/ t' * fnorm (mR P3')) <= uro * (516 / 100)) by (apply Rmult_le_compat_l; lra). lra. }
  (* the linear part *)
  assert (FI : finm m33_identity) by (intros i j Hi Hj; clear - Hi Hj; destruct i as [ |[ |[ |i]]]; [ | | |lia]; (destruct j as [ |[ |[ |j]]]; [ | | |lia]); reflexivity || apply one_val).
  assert (VI : forall i j, (i < 3)%nat -> (j < 3)%nat -> mR m33_identity i j = dlt i j).
  { intros i j Hi Hj. clear - Hi Hj Hp11. destruct (one_val) as [_ V1]. destruct i as [ |[ |[ |i]]]; [ | | |lia]; (destruct j as [ |[ |[ |j]]]; [ | | |lia]); exact V1 || reflexivity. }
  assert (ND : fnorm dlt <= 17321 / 10000) by (apply fnorm_le; [lra| ]; unfold fro2; lazy [sumn dlt Nat.eqb add zero mul R_Num sq_sum]; lra).
  destruct (fm_half W FW) as [F5 E5]. set (P5 := m33_div W (add one one)) in *.
  assert (Q5 : dst (mR P5) (fun i j => / 2 * (t * K i j)) <= / 2 * d + 3 * eta).
  { eapply Rle_trans; [apply (dst_tri _ (fun i j => / 2 * mR W i j))| ].
    assert (dst (fun i j => / 2 * mR W i j) (fun i j => / 2 * (t * K i j)) <= / 2 * d); [ |lra].
    unfold dst. rewrite (fnorm_ext _ (fun i j => / 2 * (mR W i j - t * K i j))) by (intros; ring). rewrite (fnorm_scal (/ 2) (fun i j => mR W i j - t * K i j)), Rabs_pos_eq by lra. fold (dst (mR W) (fun i j => t * K i j)). lra. }
  assert (N1 : fnorm (fun i j => dlt i j - / 2 * (t * K i j)) <= 4).
  { rewrite (fnorm_ext _ (fun i j => dlt i j + - / 2 * (t * K i j))) by (intros; ring). eapply Rle_trans; [apply (fnorm_plus dlt (fun i j => - / 2 * (t * K i j)))| ].
    rewrite (fnorm_scal (- / 2) (fun i j => t * K i j)), Rabs_left by lra. lra. }
  assert (Q6 : dst (fun i j => mR m33_identity i j - mR P5 i j) (fun i j => dlt i j - / 2 * (t * K i j)) <= / 2 * d + 3 * eta).
  { eapply Rle_trans; [ |exact Q5]. unfold dst. rewrite (fnorm_ext _ (fun i j => -1 * (mR P5 i j - / 2 * (t * K i j)))) by (intros i j Hi Hj; rewrite (VI i j Hi Hj); ring).
    rewrite (fnorm_scal (-1) (fun i j => mR P5 i j - / 2 * (t * K i j))), Rabs_left by lra. lra. }
  assert (N6 : fnorm (fun i j => mR m33_identity i j - mR P5 i j) <= 417 / 100) by (eapply Rle_trans; [apply (fnorm_dst _ (fun i j => dlt i j - / 2 * (t * K i j)))|lra]).
  destruct (fm_sub Hp11 He4 m33_identity P5 FI F5 ltac:(lra)) as [F6 E6]. set (P6 := m33_sub m33_identity P5) in *.
  assert (Q7 : dst (mR P6) (fun i j => dlt i j - / 2 * (t * K i j)) <= 58 / 100 * d).
  { eapply Rle_trans; [apply (dst_tri _ (fun i j => mR m33_identity i j - mR P5 i j))| ].
    assert (uro * fnorm (fun i j => mR m33_identity i j - mR P5 i j) <= uro * (417 / 100)) by (apply Rmult_le_compat_l; lra). lra. }
  assert (N7 : fnorm (mR P6) <= 419 / 100) by (eapply Rle_trans; [apply (fnorm_dst _ (fun i j => dlt i j - / 2 * (t * K i j)))|lra]).
  assert (NX4 : fnorm (fun i j => / t * (ga * (t * t * mm K K i j))) <= 363 / 100).
  { rewrite (fnorm_scal (/ t) (fun i j => ga * (t * t * mm K K i j))), Rabs_pos_eq by lra. eapply Rle_trans; [apply Rmult_le_compat_l; [lra|exact NX3]| ].
    replace (/ t * (363 / 100 * t)) with (363 / 100) by (field; lra). lra. }
  assert (N4 : fnorm (mR P4) <= 518 / 100) by (eapply Rle_trans; [apply (fnorm_dst _ (fun i j => / t * (ga * (t * t * mm K K i j))))|lra]).
  destruct (add_near Hp11 He4 P6 P4 _ _ _ _ (937 / 100) F6 F4 Q7 Q4 ltac:(lra) ltac:(lra)) as [F8 Q8].
  change (jinv_fl W th) with (m33_add P6 P4). split; [exact F8| ].
  assert (Q9 : dst (mR (m33_add P6 P4)) (fun i j => dlt i j - / 2 * (t * K i j) + / t * (ga * (t * t * mm K K i j))) <= 56 / 10 * d) by (eapply Rle_trans; [exact Q8|lra]).
  assert (NG : fnorm (fun i j => dlt i j - / 2 * (t * K i j) + / t * (ga * (t * t * mm K K i j))) <= 77 / 10).
  { eapply Rle_trans; [apply (fnorm_plus (fun i j => dlt i j - / 2 * (t * K i j)) (fun i j => / t * (ga * (t * t * mm K K i j))))|lra]. }
  split; [exact Q9|split; [exact NG| ]]. eapply Rle_trans; [apply (fnorm_dst _ (fun i j => dlt i j - / 2 * (t * K i j) + / t * (ga * (t * t * mm K K i j))))|lra].
Qed.

Lemma log_angle (m : M33 fl) (a : V3 R) t E e : v3_dot a a = 1 -> 0 < t < PI -> close3 E m (rodrigues a t) -> acos_ok e ->
  100 * (E + e + 5 * uro) <= sin t * sin t -> let th := facos (div (sub (m33_trace m) one) (add one one)) in
  is_finite th = true /\ Rabs (B2R th - t) <= 117 / 100 * (3 / 2 * E + 5 * uro) / sin t + e.
Proof.
  intros Ua T C A L th. pose proof (uro_pos (prec := prec)) as P. pose proof (close_pos _ _ _ C) as E0. pose proof (acos_pos e A) as e0. pose proof (sin_gt_0 t ltac:(lra) ltac:(lra)) as S0. pose proof (SIN_bound t) as [_ S1].
  assert (SS : sin t * sin t <= 1) by nra.
  destruct (trace_cos Hp11 He4 m a t E Ua C ltac:(lra)) as [Fx Vx]. cbv zeta in Fx, Vx. set (x := div (sub (m33_trace m) one) (add one one)) in *.
  destruct (acos_near t (B2R x) _ T Vx ltac:(lra)) as (X1 & Fr & CA & SA & AT & AS). destruct A as [A1 A2]. destruct (A2 x Fx ltac:(apply Rabs_le; lra)) as [Fth Vth]. fold th in Fth, Vth.
  split; [exact Fth| ]. replace (B2R th - t) with ((acos (B2R x) - t) + (B2R th - acos (B2R x))) by ring. eapply Rle_trans; [apply Rabs_triang| ]. apply Rplus_le_compat; [ |exact Vth].
  apply (Rmult_le_reg_l (sin t)); [exact S0| ]. eapply Rle_trans; [exact AT| ]. apply Req_le. field. lra.
Qed.

Lemma is_zero_val (m : M33 fl) : finm m -> m33_is_zero m = true -> forall i j, (i < 3)%nat -> (j < 3)%nat -> mR m i j = 0.
Proof.
  intros F Z. assert (G : forall x : fl, is_finite x = true -> eqb x zero = true -> B2R x = 0).
  { intros x Fx E. change (eqb x zero) with (Beqb x (zero : fl)) in E. rewrite Beqb_correct in E by (assumption || reflexivity). 
    destruct (Req_bool_spec (B2R x) (B2R (zero : fl))) as [E'|N]; [exact E'|discriminate E]. }
  assert (Z' : forall i j, (i < 3)%nat -> (j < 3)%nat -> eqb (mfun m i j) zero = true).
  { clear F G. unfold m33_is_zero in Z. destruct m as ((r00&r01&r02&[])&(r10&r11&r12&[])&(r20&r21&r22&[])&[]).
    lazy [aeqb m33_zeros ahd atl acons anil fst snd] in Z. rewrite ?andb_true_r in Z. repeat (apply andb_true_iff in Z; destruct Z as [? Z]) || idtac.
    repeat match goal with H : _ && _ = true |- _ => apply andb_true_iff in H; destruct H end.
    intros i j Hi Hj. ij i j Hi Hj; assumption. }
  intros i j Hi Hj. unfold mR. apply G; [apply F|apply Z']; assumption.
Qed.

(** a float matrix of a twist: last row zero, the angular part within [E], the linear part within [D] *)
Definition closeT (E D : R) (M : M44 fl) (A : M44 R) : Prop :=
  (forall i j, (i < 4)%nat -> (j < 4)%nat -> is_finite (mfun M i j) = true) /\
  (forall j, (j < 4)%nat -> B2R (mfun M 3 j) = 0) /\
  sqrt (sumn 3 (fun i => sumn 3 (fun j => (B2R (mfun M i j) - mfun A i j) ^ 2))) <= E /\
  sqrt (sumn 3 (fun i => (B2R (mfun M i 3) - mfun A i 3) ^ 2)) <= D.

Definition se3_of (W : M33 fl) (v : V3 fl) : M44 fl :=
  [| [| mfun W 0 0; mfun W 0 1; mfun W 0 2; vfun v 0 |]; [| mfun W 1 0; mfun W 1 1; mfun W 1 2; vfun v 1 |]; [| mfun W 2 0; mfun W 2 1; mfun W 2 2; vfun v 2 |]; [| zero; zero; zero; zero |] |].

Lemma log6_eq (M : M44 fl) : let r := fst (get_parts_raw M) in let p := snd (get_parts_raw M) in
  matrix_log6 M = if m33_is_zero (matrix_log r) then se3_of m33_zeros p
    else se3_of (matrix_log r) (m33_mul_v (jinv_fl (matrix_log r) (facos (div (sub (m33_trace r) one) (add one one)))) p).
Proof.
  intros r p. unfold matrix_log6. replace (get_parts_raw M) with (r, p) by (unfold r, p; destruct (get_parts_raw M); reflexivity). cbv beta iota zeta.
  unfold jinv_fl, gam_fl. clearbody r p. generalize (facos ((m33_trace r - one) / (one + one))%sc). generalize (matrix_log r). intros W th. destruct (m33_is_zero W); [reflexivity| ].
  match goal with |- context [m33_mul_v ?X p] => generalize (m33_mul_v X p) end. intros v. reflexivity.
Qed.

Lemma se3_close E D (W : M33 fl) (v : V3 fl) (w x : V3 R) : close3 E W (skew_from_vec w) -> (forall i, (i < 3)%nat -> is_finite (vfun v i) = true) -> nrm 3 (fun i => vR v i - vfun x i) <= D ->
  closeT E D (se3_of W v) (twist_to_se3 (tw w x)).
Proof.
  intros [F C] Fv Dv. split; [ |split; [ |split]].
  - intros i j Hi Hj. destruct i as [ |[ |[ |[ |i]]]]; [ | | | |lia]; (destruct j as [ |[ |[ |[ |j]]]]; [ | | | |lia]);
      lazy [se3_of mfun List.nth List.map alist ix0 ix1 ix2 ix3 ahd atl acons anil fst snd]; try reflexivity; try (apply Fv; lia).
    + exact (F 0%nat 0%nat ltac:(lia) ltac:(lia)).
    + exact (F 0%nat 1%nat ltac:(lia) ltac:(lia)).
    + exact (F 0%nat 2%nat ltac:(lia) ltac:(lia)).
    + exact (F 1%nat 0%nat ltac:(lia) ltac:(lia)).
    + exact (F 1%nat 1%nat ltac:(lia) ltac:(lia)).
    + exact (F 1%nat 2%nat ltac:(lia) ltac:(lia)).
    + exact (F 2%nat 0%nat ltac:(lia) ltac:(lia)).
    + exact (F 2%nat 1%nat ltac:(lia) ltac:(lia)).
    + exact (F 2%nat 2%nat ltac:(lia) ltac:(lia)).
  - intros j Hj. destruct j as [ |[ |[ |[ |j]]]]; [reflexivity..|lia].
  - eapply Rle_trans; [ |exact C]. apply Req_le. reflexivity.
  - eapply Rle_trans; [ |exact Dv]. apply Req_le. unfold nrm, sq_sum. f_equal. apply sumn_ext. intros i Hi.
    transitivity ((vR v i - vfun x i) ^ 2); [ |lazy [mul R_Num]; ring]. f_equal. clear - Hi. unfold vR. destruct w as (w0&w1&w2&[]), x as (x0&x1&x2&[]). destruct i as [ |[ |[ |i]]]; [reflexivity..|lia].
Qed.

(** the exact linear velocity *)
Lemma jinv_exact (a p : V3 R) t : v3_dot a a = 1 -> 0 < t < PI -> exists v : V3 R, m33_mul_v (left_jacobian a t) v = p /\ forall i, (i < 3)%nat -> vfun v i = ap (jinvR a t) (vfun p) i.
Proof.
  intros Ua T. pose proof (left_jacobian_inverse a p t Ua ltac:(lra)) as J. cbv zeta in J. pose proof PI_RGT_0 as PP.
  assert (G : 1 / t - 1 / tan (t / (1 + 1)) / (1 + 1) = gam t).
  { unfold gam. replace (1 + 1) with 2 by ring. assert (0 < sin (t / 2)) by (apply sin_gt_0; lra). assert (0 < cos (t / 2)) by (apply cos_gt_0; lra). unfold tan. field. repeat split; lra. }
  rewrite G in J. eexists. split; [exact J| ]. unfold jinvR. generalize (gam t). clear - T. intros g i Hi. destruct a as (a0&a1&a2&[]), p as (x0&x1&x2&[]). unfold ap, mm, dlt.
  destruct i as [ |[ |[ |i]]]; [ | | |lia];
    lazy [mfun m33_mul_v m33_add m33_sub m33_div m33_scale m33_mul m33_identity skew_from_vec v3_scale Nat.eqb List.nth List.map alist ahd atl acons anil fst snd vfun ix0 ix1 ix2 neg zero one add sub div mul R_Num R_Signed]; field; lra.
Qed.

Lemma c105_regular_partial : forall e E D (M : M44 fl) (a p : V3 R) t, v3_dot a a = 1 -> 0 < t < PI -> let A := homogeneous_from_rotation (rodrigues a t) p in
  closeH E D M A -> acos_ok e -> tan_ok e -> 100 * (E + e + 5 * uro) <= sin t * sin t ->
  let d := (16 * E + 13 * e + 60 * uro) / (sin t * sin t) in 10 * d <= t -> tlen A + D <= bpow radix2 (emax - 12) ->
  exists v : V3 R, is_mexp 4 (mfun (twist_to_se3 (tw (v3_scale a t) v))) (mfun A) /\
  closeT d (61 / 10 * d * (tlen A + D) + 77 / 10 * D + 7 * eta) (matrix_log6 M) (twist_to_se3 (tw (v3_scale a t) v)).
Proof.
  intros e E D M a p t Ua T A C AO TO L d Ld LT. pose proof (uro_small Hp11) as U. pose proof (uro_pos (prec := prec)) as P. pose proof (eta_tiny Hp11 He4) as Ht. assert (T0 : 0 <= eta) by apply eta_pos.
  pose proof (acos_pos e AO) as e0. destruct (closeH_parts _ _ _ _ C) as (E0 & D0 & CE & CD). destruct C as (CF & _ & _ & _). rewrite tlen_nrm in LT |- *.
  set (r := fst (get_parts_raw M)) in *. set (q := snd (get_parts_raw M)) in *.
  assert (Er : forall i j, (i < 3)%nat -> (j < 3)%nat -> mfun r i j = mfun M i j) by (intros i j Hi Hj; ij i j Hi Hj; reflexivity).
  assert (Eq : forall i, (i < 3)%nat -> vfun q i = mfun M i 3) by (intros i Hi; destruct i as [ |[ |[ |i]]]; [reflexivity..|lia]).
  assert (EA : forall i j, (i < 3)%nat -> (j < 3)%nat -> mfun A i j = mfun (rodrigues a t) i j).
  { unfold A. generalize (rodrigues a t). clear. intros m i j Hi Hj. destruct m as ((r00&r01&r02&[])&(r10&r11&r12&[])&(r20&r21&r22&[])&[]), p as (p0&p1&p2&[]). ij i j Hi Hj; reflexivity. }
  assert (EP : forall i, (i < 3)%nat -> tA A i = vfun p i).
  { unfold A, tA. generalize (rodrigues a t). clear. intros m i Hi. destruct m as ((r00&r01&r02&[])&(r10&r11&r12&[])&(r20&r21&r22&[])&[]), p as (p0&p1&p2&[]). destruct i as [ |[ |[ |i]]]; [reflexivity..|lia]. }
  assert (C3 : close3 E r (rodrigues a t)).
  { split; [intros i j Hi Hj; rewrite (Er i j Hi Hj); apply CF; lia| ]. rewrite close_dst. eapply Rle_trans; [ |exact CE]. apply Req_le. unfold dst. apply fnorm_ext. intros i j Hi Hj. unfold mR, hR. rewrite (Er i j Hi Hj), (EA i j Hi Hj). reflexivity. }
  assert (Dq : nrm 3 (fun i => vR q i - vfun p i) <= D).
  { eapply Rle_trans; [ |exact CD]. apply Req_le. apply nrm_ext. intros i Hi. unfold vR, hT. rewrite (Eq i Hi), (EP i Hi). reflexivity. }
  replace (nrm 3 (tA A)) with (nrm 3 (vfun p)) in LT |- * by (apply nrm_ext; intros i Hi; symmetry; exact (EP i Hi)). set (N := nrm 3 (vfun p)) in *. assert (N0 : 0 <= N) by apply nrm_pos.
  pose proof (c99_regular_partial Hp11 He4 e E r a t Ua T C3 AO L) as CW. fold d in CW. set (W := matrix_log r) in *.
  (* the angle *)
  pose proof (log_angle r a t E e Ua T C3 AO L) as [Fth Eth]. cbv zeta in Fth, Eth. set (th := facos (div (sub (m33_trace r) one) (add one one))) in *.
  pose proof (sin_gt_0 t ltac:(lra) ltac:(lra)) as S0. pose proof (SIN_bound t) as [_ S1]. set (s := sin t) in *. assert (is : 0 < / s) by (apply Rinv_0_lt_compat, S0).
  assert (st : s <= t) by (pose proof (sin_abs t) as Q; fold s in Q; rewrite !Rabs_pos_eq in Q by lra; exact Q).
  assert (sp : s <= PI - t) by (pose proof (sin_abs (PI - t)) as Q; rewrite sin_PI_x in Q; fold s in Q; rewrite !Rabs_pos_eq in Q by lra; exact Q).
  assert (ss : s * s <= s) by (assert (s * s <= 1 * s) by (apply Rmult_le_compat_r; lra); lra).
  set (dl := 117 / 100 * (3 / 2 * E + 5 * uro) / s + e) in *.
  assert (dls : dl * s = 117 / 100 * (3 / 2 * E + 5 * uro) + e * s) by (unfold dl; field; lra).
  assert (es : e * s <= e * 1) by (apply Rmult_le_compat_l; lra).
  assert (dss : d * (s * s) = 16 * E + 13 * e + 60 * uro) by (unfold d; field; lra).
  assert (s20 : 0 < s * s) by (apply Rmult_lt_0_compat; lra).
  assert (d60 : 60 * uro + 13 * e <= d).
  { apply (Rmult_le_reg_r (s * s)); [exact s20| ]. rewrite dss. assert ((60 * uro + 13 * e) * (s * s) <= (60 * uro + 13 * e) * 1) by (apply Rmult_le_compat_l; lra). lra. }
  assert (X1 : dl <= 111 / 1000 * (d * s)) by (apply (Rmult_le_reg_r s); [exact S0| ]; replace (111 / 1000 * (d * s) * s) with (111 / 1000 * (d * (s * s))) by ring; rewrite dls, dss; lra).
  assert (X2 : dl <= 18 / 1000 * s) by (apply (Rmult_le_reg_r s); [exact S0| ]; rewrite dls, Rmult_assoc; lra).
  assert (X3 : 5 * uro <= dl).
  { apply (Rmult_le_reg_r s); [exact S0| ]. rewrite dls. assert (5 * uro * s <= 5 * uro * 1) by (apply Rmult_le_compat_l; lra). assert (0 <= e * s) by (apply Rmult_le_pos; lra). lra. }
  assert (dst' : d * s <= d * t) by (apply Rmult_le_compat_l; lra). assert (dtt : d * t <= / 10 * (t * t)) by (assert (10 * d * t <= t * t) by (apply Rmult_le_compat_r; lra); lra).
  destruct (gam_near th t e dl Fth T Eth TO e0 ltac:(lra) ltac:(lra) ltac:(lra) ltac:(lra) ltac:(lra) X3) as [Fg Eg].
  assert (it : 0 < / t) by (apply Rinv_0_lt_compat; lra).
  assert (Eg' : Rabs (B2R (gam_fl th) - gam t) <= 64 / 100 * (d / t)).
  { eapply Rle_trans; [exact Eg| ]. apply (Rmult_le_reg_r (t * t)); [apply Rmult_lt_0_compat; lra| ].
    replace ((43 / 10 * dl / (t * t) + (2 * e + 6 * uro) / t) * (t * t)) with (43 / 10 * dl + (2 * e + 6 * uro) * t) by (field; lra). replace (64 / 100 * (d / t) * (t * t)) with (64 / 100 * (d * t)) by (field; lra).
    assert ((2 * e + 6 * uro) * t <= 154 / 1000 * d * t) by (apply Rmult_le_compat_r; lra). lra. }
  destruct (jinv_core a t d W th Ua T CW ltac:(lra) Ld Fth ltac:(lra) Fg Eg') as (FJ & DJ & BG & BJ). set (J := jinv_fl W th) in *.
  (* the rotation is seen *)
  assert (NZ : m33_is_zero W = false).
  { destruct (m33_is_zero W) eqn:Z; [exfalso|reflexivity]. destruct CW as [FW CW]. pose proof (is_zero_val W FW Z) as V. rewrite close_dst in CW.
    assert (Q : fnorm (mfun (skew_from_vec (v3_scale a t))) <= d).
    { eapply Rle_trans; [ |exact CW]. unfold dst. apply Req_le. rewrite (fnorm_ext (fun i j => mR W i j - mfun (skew_from_vec (v3_scale a t)) i j) (fun i j => -1 * mfun (skew_from_vec (v3_scale a t)) i j)) by (intros i j Hi Hj; rewrite (V i j Hi Hj); ring).
      rewrite (fnorm_scal (-1)), Rabs_left by lra. lra. }
    pose proof (fnorm_fro (mfun (skew_from_vec (v3_scale a t)))) as FF. rewrite skew_fro, v3_dot_scale, Ua in FF. pose proof (fnorm_pos (mfun (skew_from_vec (v3_scale a t)))) as F0.
    set (f := fnorm (mfun (skew_from_vec (v3_scale a t)))) in *. assert (f * f <= d * d) by (apply Rmult_le_compat; lra). assert (d * d <= t / 10 * (t / 10)) by (apply Rmult_le_compat; lra). assert (0 < t * t) by (apply Rmult_lt_0_compat; lra). lra. }
  destruct (jinv_exact a p t Ua T) as (v & Jv & Ev). exists v. split.
  { eapply is_mexp_ext; [ |apply (mexp_twist a v t Ua); lra]. intros i j _ _. rewrite Jv. reflexivity. }
  rewrite log6_eq. fold r q W. rewrite NZ. fold th J.
  destruct (big_b Hp11 He4) as (b & Eb & B1 & BE).
  assert (Eb4 : bpow radix2 (emax - 12) = b / 4) by (rewrite Eb; replace (emax - 12)%Z with (-2 + (emax - 10))%Z by ring; rewrite bpow_plus; change (bpow radix2 (-2)) with (/ 4); field). rewrite Eb4 in LT.
  assert (Nq : nrm 3 (vR q) <= N + D).
  { rewrite (nrm_ext 3 _ (fun i => vfun p i + (vR q i - vfun p i))) by (intros; ring). eapply Rle_trans; [apply nrm_plus|unfold N; lra]. }
  set (V := nrm 3 (vR q)) in *. assert (V0 : 0 <= V) by apply nrm_pos.
  assert (Hx : vec_le (2 * b) q) by (intros k Hk; split; [rewrite (Eq k Hk); apply CF; lia|eapply Rle_trans; [apply (comp_nrm 3 (vR q) k Hk)|fold V; lra]]).
  assert (HJ : forall i j, (i < 3)%nat -> (j < 3)%nat -> is_finite (mfun J i j) = true /\ Rabs (mR J i j) <= 32) by (intros i j Hi Hj; split; [apply FJ; assumption|pose proof (fnorm_entry (mR J) i j Hi Hj); lra]).
  pose proof (linear_big Hp11 He4 J q b Eb HJ Hx) as LB. cbv zeta in LB. set (y := m33_mul_v J q) in *.
  apply se3_close; [exact CW|intros i Hi; apply (LB i Hi)| ].
  rewrite (nrm_ext 3 _ (fun i => ((vR y i - ap (mR J) (vR q) i) + ap (fun i j => mR J i j - jinvR a t i j) (vR q) i) + ap (jinvR a t) (fun k => vR q k - vfun p k) i)) by (intros i Hi; rewrite (Ev i Hi); unfold ap; ring).
  eapply Rle_trans; [apply nrm_plus| ]. eapply Rle_trans; [apply Rplus_le_compat_r, nrm_plus| ].
  assert (Q1 : nrm 3 (ap (fun i j => mR J i j - jinvR a t i j) (vR q)) <= 56 / 10 * d * V) by (eapply Rle_trans; [apply ap_fnorm| ]; apply Rmult_le_compat_r; [exact V0|exact DJ]).
  assert (Q3 : nrm 3 (ap (jinvR a t) (fun k => vR q k - vfun p k)) <= 77 / 10 * D) by (eapply Rle_trans; [apply ap_fnorm| ]; apply Rmult_le_compat; [apply fnorm_pos|apply nrm_pos|exact BG|exact Dq]).
  assert (Q2 : nrm 3 (fun i => vR y i - ap (mR J) (vR q) i) <= 29 * uro * V + 7 * eta).
  { eapply Rle_trans; [apply (nrm_mono 3 _ (fun i => 301 / 100 * uro * aap (mR J) (vR q) i + 4 * eta)); intros k Hk; apply (LB k Hk)| ].
    eapply Rle_trans; [apply (nrm_plus 3 (fun i => 301 / 100 * uro * aap (mR J) (vR q) i) (fun _ => 4 * eta))| ]. rewrite nrm_scal, (Rabs_pos_eq (301 / 100 * uro)) by lra.
    assert (A1 : nrm 3 (aap (mR J) (vR q)) <= 96 / 10 * V). { eapply Rle_trans; [apply (nrm_aap (mR J) (vR q) (fnorm (mR J))); [rewrite fnorm_fro; apply Rle_refl|apply fnorm_pos]| ]. apply Rmult_le_compat_r; assumption. }
    assert (A2 : nrm 3 (fun _ => 4 * eta) <= 7 * eta) by (apply nrm_le; [lra| ]; unfold sq_sum; lazy [sumn add mul zero R_Num]; nra).
    assert (301 / 100 * uro * nrm 3 (aap (mR J) (vR q)) <= 301 / 100 * uro * (96 / 10 * V)) by (apply Rmult_le_compat_l; lra). assert (0 <= uro * V) by (apply Rmult_le_pos; lra). lra. }
  assert (Q4 : (56 / 10 * d + 29 * uro) * V <= 61 / 10 * d * (N + D)).
  { apply Rmult_le_compat; lra. }
  lra.
Qed.
End F.

#[local] Existing Instance ProofsFloatAngles.prec53.
#[local] Existing Instance ProofsFloatAngles.emax1024.
#[local] Notation f64 := (binary_float 53 1024).
#[local] Notation u53 := (FloatFacts.uro (prec := 53)).

(** ** half turns *)
Lemma twist_half_turn (a b p v : V3 R) : v3_dot a a = 1 -> is_mexp 4 (mfun (twist_to_se3 (tw b v))) (mfun (homogeneous_from_rotation (rodrigues a PI) p)) -> PI * PI <= v3_dot b b.
Proof.
  intros Ua H. pose proof PI_RGT_0 as PP.
  assert (EA : forall (m : M33 R) (p : V3 R) i j, (i < 3)%nat -> (j < 3)%nat -> mfun (homogeneous_from_rotation m p) i j = mfun m i j).
  { clear. intros m p i j Hi Hj. destruct m as ((r00&r01&r02&[])&(r10&r11&r12&[])&(r20&r21&r22&[])&[]), p as (p0&p1&p2&[]). ij i j Hi Hj; reflexivity. }
  assert (B0 : 0 <= v3_dot b b) by (destruct b as (x&y&z&[]); change (0 <= x * x + y * y + z * z); nra).
  destruct (Req_dec (v3_dot b b) 0) as [Z|NZ].
  - exfalso. assert (b = v3_zeros).
    { destruct b as (x&y&z&[]). change (x * x + y * y + z * z = 0) in Z. assert (x = 0) by nra. assert (y = 0) by nra. assert (z = 0) by nra. subst. reflexivity. }
    subst b. pose proof (is_mexp_unique _ _ _ _ H (mexp_translation v)) as Q.
    pose proof (Q 0%nat 0%nat ltac:(lia) ltac:(lia)) as Q0. pose proof (Q 1%nat 1%nat ltac:(lia) ltac:(lia)) as Q1. pose proof (Q 2%nat 2%nat ltac:(lia) ltac:(lia)) as Q2. rewrite !EA in Q0, Q1, Q2 by lia.
    pose proof (rodrigues_trace a PI Ua) as Tr. rewrite cos_PI in Tr.
    assert (Tr' : mfun (rodrigues a PI) 0 0 + mfun (rodrigues a PI) 1 1 + mfun (rodrigues a PI) 2 2 = -1).
    { transitivity (m33_trace (rodrigues a PI)); [ |lra]. generalize (rodrigues a PI). clear. intros r. destruct r as ((r00&r01&r02&[])&(r10&r11&r12&[])&(r20&r21&r22&[])&[]). reflexivity. }
    rewrite Q0, Q1, Q2 in Tr'. change (1 + 1 + 1 = -1) in Tr'. lra.
  - set (n := sqrt (v3_dot b b)). assert (n0 : 0 < n) by (apply sqrt_lt_R0; lra). assert (nn : n * n = v3_dot b b) by (apply sqrt_sqrt; exact B0).
    set (u := v3_scale b (/ n)). assert (Uu : v3_dot u u = 1) by (unfold u; rewrite v3_dot_scale, <- nn; field; lra).
    assert (Eb : b = v3_scale u n). { unfold u. clear - n0. clearbody n. destruct b as (x&y&z&[]). change ([| x; y; z |] = [| x * / n * n; y * / n * n; z * / n * n |]). rewrite !Rmult_assoc, Rinv_l, !Rmult_1_r by lra. reflexivity. }
    rewrite Eb in H. pose proof (is_mexp_unique _ _ _ _ H (mexp_twist u v n Uu ltac:(lra))) as Q.
    apply (half_turn_log a b Ua). rewrite Eb. eapply is_mexp_ext; [ |apply (mexp_rodrigues (K := f64_consts) u n Uu); lra].
    intros i j Hi Hj. specialize (Q i j ltac:(lia) ltac:(lia)). rewrite !EA in Q by assumption. symmetry. exact Q.
Qed.

Lemma c105_half_turn_refuted : exists (M : M44 f64) (A : M44 R), SE3 A /\ closeH (4 * u53) 0 M A /\
  forall (O : FOracle f64) e, acos_ok (O := O) e -> e <= / 10 ^ 9 ->
  (forall i j, (i < 3)%nat -> (j < 3)%nat -> B2R (mfun (matrix_log6 M) i j) = 0) /\
  forall (b v : V3 R) D, is_mexp 4 (mfun (twist_to_se3 (tw b v))) (mfun A) -> ~ closeT 2 D (matrix_log6 M) (twist_to_se3 (tw b v)).
Proof.
  set (x := [| one; zero; zero |] : V3 f64). set (p := [| 1; 0; 0 |] : V3 R).
  exists (homogeneous_from_rotation half_m x), (homogeneous_from_rotation (rodrigues half_a PI) p).
  pose proof half_a_unit as Ua. assert (SR : SO3 (rodrigues half_a PI)) by apply rodrigues_SO3, Ua.
  destruct (c97_from_rotation (4 * u53) 0 half_m (rodrigues half_a PI) x p SR half_close) as [SA CA].
  { intros i Hi. destruct i as [ |[ |[ |i]]]; [apply one_val|reflexivity..|lia]. }
  { apply Req_le. rewrite <- sqrt_0. f_equal. cbn [sumn]. lazy [add mul zero R_Num]. change (vfun x 0) with (one : f64). change (vfun x 1) with (zero : f64). change (vfun x 2) with (zero : f64).
    rewrite (proj2 one_val). change (B2R (zero : f64)) with 0. change (vfun p 0) with 1. change (vfun p 1) with 0. change (vfun p 2) with 0. ring. }
  split; [exact SA|split; [exact CA| ]]. intros O e AO Le. pose proof (half_log_zero O e AO Le) as HZ.
  set (M := homogeneous_from_rotation half_m x).
  assert (EM : forall i j, (i < 3)%nat -> (j < 3)%nat -> is_finite (mfun (matrix_log6 M) i j) = true /\ B2R (mfun (matrix_log6 M) i j) = 0).
  { rewrite log6_eq. replace (fst (get_parts_raw M)) with half_m by reflexivity. cbv zeta. destruct (m33_is_zero (matrix_log half_m)).
    - intros i j Hi Hj. clear - Hi Hj. ij i j Hi Hj; split; reflexivity.
    - intros i j Hi Hj. match goal with |- context [se3_of ?W ?v] => assert (Q : mfun (se3_of W v) i j = mfun W i j) by (generalize W v; clear - Hi Hj; intros W1 v1; ij i j Hi Hj; reflexivity) end.
      rewrite Q. apply HZ; assumption. }
  split; [intros i j Hi Hj; apply (EM i j Hi Hj)| ].
  intros b v D HA (_ & _ & C & _). pose proof (twist_half_turn half_a b p v Ua HA) as HB.
  assert (C3 : sqrt (2 * v3_dot b b) <= 2).
  { eapply Rle_trans; [ |exact C]. apply Req_le. f_equal. rewrite <- skew_fro. unfold fro2, sq_sum. lazy [sumn add mul zero R_Num]. rewrite !(fun i j Hi Hj => proj2 (EM i j Hi Hj)) by lia.
    clear. destruct b as (b0&b1&b2&[]), v as (v0&v1&v2&[]). lazy -[Rplus Rmult Ropp Rminus IZR pow]. ring. }
  pose proof PI2_1 as P1. assert (8 <= 2 * v3_dot b b) by nra. assert (Q : sqrt 8 <= 2) by (eapply Rle_trans; [apply sqrt_le_1_alt; eassumption|exact C3]).
  assert (sqrt 8 * sqrt 8 = 8) by (apply sqrt_sqrt; lra). pose proof (sqrt_pos 8). nra.
Qed.

(** ** examples *)
#[local] Existing Instance crO.
Lemma near_big r : Rabs r <= bpow radix2 60 -> is_finite (near r) = true /\ Rabs (B2R (near r) - r) <= u53 * Rabs r + FloatFacts.eta (prec := 53) (emax := 1024).
Proof.
  intros L. unfold near. set (fe := FLT_exp (3 - 1024 - 53) 53). set (r' := round radix2 fe ZnearestE r).
  assert (G : generic_format radix2 fe r') by (apply generic_format_round; [apply FLT_exp_valid; exact ProofsFloatAngles.prec53|apply valid_rnd_N]).
  assert (B : Rabs r' <= bpow radix2 60).
  { apply abs_round_le_generic; [apply FLT_exp_valid; exact ProofsFloatAngles.prec53|apply valid_rnd_N| |exact L]. apply generic_format_bpow. unfold fe, FLT_exp. lia. }
  pose proof (binary_normalize_correct 53 1024 ProofsFloatAngles.prec53 ProofsFloatAngles.emax1024 mode_NE (Ztrunc (scaled_mantissa radix2 fe r')) (cexp radix2 fe r') false) as C. cbn [round_mode] in C. cbv zeta in C.
  assert (E : F2R (Defs.Float radix2 (Ztrunc (scaled_mantissa radix2 fe r')) (cexp radix2 fe r')) = r') by (symmetry; exact G). rewrite E in C. rewrite fe_eq in C. fold fe in C.
  rewrite (round_generic radix2 fe ZnearestE r' G) in C. rewrite Rlt_bool_true in C.
  - destruct C as (C1 & C2 & _). split; [exact C2| ]. rewrite C1. unfold r'. change fe with (FLT_exp (3 - 1024 - 53) 53).
    destruct (rnd_error (prec := 53) (emax := 1024) r) as (e & h & Le & Lh & ->).
    replace (r * (1 + e) + h - r) with (e * r + h) by ring. eapply Rle_trans; [apply Rabs_triang| ]. rewrite Rabs_mult. apply Rplus_le_compat; [ |exact Lh]. apply Rmult_le_compat_r; [apply Rabs_pos|exact Le].
  - eapply Rle_lt_trans; [exact B| ]. apply bpow_lt. lia.
Qed.
Lemma crO_tan : tan_ok (O := crO) (2 * u53).
Proof.
  intros x Fx Lx Hx Cx. pose proof (uro_pos (prec := 53)) as P. pose proof pi_32 as P3. pose proof (sin_lower (B2R x) ltac:(lra)) as Sx. pose proof (SIN_bound (B2R x)) as SB. pose proof (COS_bound (B2R x)) as CB.
  assert (TX : tan (B2R x) = sin (B2R x) / cos (B2R x)) by reflexivity. assert (ic : 0 < / cos (B2R x)) by (apply Rinv_0_lt_compat; lra).
  assert (ic1 : 1 <= / cos (B2R x)) by (apply (Rmult_le_reg_r (cos (B2R x))); [lra| ]; rewrite Rinv_l by lra; lra).
  assert (T1 : 57 / 100 * u53 <= tan (B2R x)).
  { rewrite TX. unfold Rdiv. assert (sin (B2R x) * 1 <= sin (B2R x) * / cos (B2R x)) by (apply Rmult_le_compat_l; lra). lra. }
  assert (T2 : tan (B2R x) <= / u53).
  { rewrite TX. unfold Rdiv. apply Rle_trans with (1 * / cos (B2R x)); [apply Rmult_le_compat_r; lra|rewrite Rmult_1_l; apply Rinv_le_contravar; lra]. }
  assert (IU : / u53 <= bpow radix2 60).
  { replace (/ u53) with (bpow radix2 53); [apply bpow_le; lia| ]. rewrite u53_val. cbn. field. }
  change (ftan x) with (near (tan (B2R x))). destruct (near_big (tan (B2R x))) as [F E]; [rewrite Rabs_pos_eq by lra; lra| ]. split; [exact F| ]. rewrite (Rabs_pos_eq (tan (B2R x))) in E by lra.
  pose proof (eta_sq (prec := 53) (emax := 1024) ltac:(lia) ltac:(lia)) as Es. assert (u53 * (57 / 100 * u53) <= u53 * tan (B2R x)) by (apply Rmult_le_compat_l; lra).
  assert (0 <= u53 * u53) by (apply Rmult_le_pos; lra). lra.
Qed.

(** one radian about the third axis and the step (3, 0, -4) *)
Example C105_case_regular : let M := homogeneous_from_rotation (rotz (fofZ 1 : f64)) ([| fofZ 3; fofZ 0; fofZ (-4) |] : V3 f64) in let A := homogeneous_from_rotation (rodrigues ez 1) ([| 3; 0; -4 |] : V3 R) in
  exists v : V3 R, is_mexp 4 (mfun (twist_to_se3 (tw (v3_scale ez 1) v))) (mfun A) /\ closeT (/ 10 ^ 12) (/ 10 ^ 10) (matrix_log6 M) (twist_to_se3 (tw (v3_scale ez 1) v)).
Proof.
  intros M A. pose proof uro53 as U. pose proof (uro_pos (prec := 53)) as P. set (x := [| fofZ 3; fofZ 0; fofZ (-4) |] : V3 f64) in M.
  assert (F1 : is_finite (fofZ 1 : f64) = true /\ B2R (fofZ 1 : f64) = 1) by apply (fofZ_int (prec := 53) (emax := 1024) 1 ltac:(cbn; lia)).
  destruct (c96_elementary _ (fofZ 1) (crO_trig (fofZ 1))) as (_ & _ & C). rewrite (proj2 F1) in C. pose proof PI2_1 as P2.
  assert (Un : v3_dot ez ez = 1) by (lazy -[Rplus Rmult Ropp Rminus IZR]; ring).
  assert (CH : closeH (2 * (11 / 10 * u53)) 0 M A).
  { assert (F : forall z, (Z.abs z <= 4)%Z -> is_finite (fofZ z : f64) = true /\ B2R (fofZ z : f64) = IZR z) by (intros z Hz; apply (fofZ_int (prec := 53) (emax := 1024) z ltac:(cbn; lia))).
    apply (c97_from_rotation _ 0 (rotz (fofZ 1 : f64)) (rodrigues ez 1) x [| 3; 0; -4 |] (rodrigues_SO3 _ _ Un) C).
    - intros i Hi. destruct i as [ |[ |[ |i]]]; [apply F; lia..|lia].
    - apply Req_le. transitivity (sqrt 0); [f_equal|apply sqrt_0]. cbn [sumn]. lazy [add mul zero R_Num]. change (vfun x 0) with (fofZ 3 : f64). change (vfun x 1) with (fofZ 0 : f64). change (vfun x 2) with (fofZ (-4) : f64).
      rewrite (proj2 (F 3%Z ltac:(lia))), (proj2 (F 0%Z ltac:(lia))), (proj2 (F (-4)%Z ltac:(lia))). lazy [vfun List.nth List.map alist ahd atl acons anil fst snd]. ring. }
  assert (TL : tlen A = 5).
  { unfold tlen. change (mfun A 0 3) with 3. change (mfun A 1 3) with 0. change (mfun A 2 3) with (-4). replace (_ + _) with (5 * 5) by ring. apply sqrt_square. lra. }
  assert (S : 8 / 27 <= sin 1 * sin 1) by (pose proof (sin_lower 1 ltac:(lra)); assert (57 / 100 * (57 / 100) <= sin 1 * sin 1) by (apply Rmult_le_compat; lra); lra).
  set (d := (16 * (2 * (11 / 10 * u53)) + 13 * (2 * u53) + 60 * u53) / (sin 1 * sin 1)).
  assert (Ld : d <= 420 * u53).
  { unfold d. apply (Rmult_le_reg_r (sin 1 * sin 1)); [lra| ]. unfold Rdiv. rewrite Rmult_assoc, Rinv_l, Rmult_1_r by lra. assert (420 * u53 * (8 / 27) <= 420 * u53 * (sin 1 * sin 1)) by (apply Rmult_le_compat_l; lra). lra. }
  assert (B5 : 8 <= bpow radix2 (1024 - 12)) by (change 8 with (bpow radix2 3); apply bpow_le; lia).
  destruct (c105_regular_partial (prec := 53) (emax := 1024) ltac:(lia) ltac:(lia) _ _ _ M ez [| 3; 0; -4 |] 1 Un ltac:(lra) CH crO_acos crO_tan ltac:(lra) ltac:(fold d; lra) ltac:(fold A; rewrite TL; lra)) as (v & Hv & Cv).
  fold A in Hv, Cv. fold d in Cv. rewrite TL in Cv. exists v. split; [exact Hv| ]. destruct Cv as (G1 & G2 & G3 & G4). pose proof (eta_tiny (prec := 53) (emax := 1024) ltac:(lia) ltac:(lia)) as Ht.
  split; [exact G1|split; [exact G2|split; [lra| ]]]. assert (61 / 10 * d * (5 + 0) <= 61 / 10 * (420 * u53) * (5 + 0)) by (apply Rmult_le_compat_r; lra). lra.
Qed.

(** the correctly rounded functions lose the half turn *)
Example C105_case_half_turn : exists (M : M44 f64) (A : M44 R), SE3 A /\ closeH (4 * u53) 0 M A /\ B2R (mfun (matrix_log6 M) 1 0) = 0.
Proof.
  destruct c105_half_turn_refuted as (M & A & SA & C & H). exists M, A. split; [exact SA|split; [exact C| ]]. pose proof uro53 as U.
  apply (H crO _ crO_acos ltac:(lra)); lia.
Qed.
