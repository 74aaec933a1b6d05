(** * ProofsFloatLog: the logarithm of float rotation matrices (C99) *)

From Coq Require Import List Arith ZArith Reals Bool Lra Lia.
From Flocq Require Import Core Relative Sterbenz Mult_error IEEE754.BinarySingleNaN.
From Verif Require Import Base Scalar Vec Mat2 Mat3 Mat4 Mat5 Mat6 Slices MatLoops MatOps Quat Transf DualQuat RingDet Spec LoopFacts Entries InstZ InstR RFacts TrigFacts LUFacts QRFacts ProofsRing ProofsQuat ProofsRot ProofsRigid ProofsEuler InstF FloatFacts ProofsFloat ProofsFloat2 ProofsFloatErr ProofsFloatInv ProofsFloatNorm ProofsFloatRot ProofsFloatDrift ProofsFloatRigid ProofsFloatDQ ProofsFloatFromRot ProofsFloatRotH ProofsFloatQR ExpSeries ProofsExp ProofsFloatAngles ProofsFloatEuler.
Local Open Scope R_scope.

(** ** angles from nearly equal cosines *)
Lemma sin_between x y z : 0 <= x <= PI -> 0 <= y <= PI -> Rmin x y <= z <= Rmax x y -> Rmin (sin x) (sin y) <= sin z.
Proof.
  intros X Y Z. pose proof PI_RGT_0 as P.
  assert (G : forall x y, 0 <= x -> y <= PI -> x <= z <= y -> Rmin (sin x) (sin y) <= sin z).
  { clear. intros x y X Y [Z1 Z2]. pose proof PI_RGT_0. destruct (Rle_dec z (PI / 2)) as [L|L].
    - eapply Rle_trans; [apply Rmin_l| ]. apply sin_incr_1; lra.
    - eapply Rle_trans; [apply Rmin_r| ]. apply sin_decr_1; lra. }
  unfold Rmax in Z. destruct (Rle_dec x y) as [L|L].
  - unfold Rmin in Z. destruct (Rle_dec x y); [ |lra]. apply G; lra.
  - unfold Rmin in Z. destruct (Rle_dec x y); [lra| ]. rewrite Rmin_comm. apply G; lra.
Qed.

Lemma cos_inv_lip x y s : 0 <= x <= PI -> 0 <= y <= PI -> 0 < s -> s <= sin x -> s <= sin y -> s * Rabs (x - y) <= Rabs (cos x - cos y).
Proof.
  intros X Y S Sx Sy.
  assert (G : forall x y, 0 <= x -> y <= PI -> s <= sin x -> s <= sin y -> x < y -> s * (y - x) <= cos x - cos y).
  { clear - S. intros x y X Y Sx Sy L.
    destruct (MVT_cor2 cos (fun t => - sin t) x y L) as (c & E & Hc); [intros; apply derivable_pt_lim_cos| ].
    assert (M : Rmin (sin x) (sin y) <= sin c) by (apply sin_between; [lra|lra|unfold Rmin, Rmax; destruct (Rle_dec x y); lra]).
    assert (B : s <= sin c) by (eapply Rle_trans; [ |exact M]; unfold Rmin; destruct (Rle_dec (sin x) (sin y)); assumption).
    assert (s * (y - x) <= sin c * (y - x)) by (apply Rmult_le_compat_r; lra). lra. }
  destruct (Rtotal_order x y) as [L|[L|L]].
  - specialize (G x y ltac:(lra) ltac:(lra) Sx Sy L). rewrite Rabs_minus_sym, (Rabs_pos_eq (y - x)) by lra. pose proof (Rle_abs (cos x - cos y)). lra.
  - subst. replace (y - y) with 0 by ring. rewrite Rabs_R0, Rmult_0_r. apply Rabs_pos.
  - specialize (G y x ltac:(lra) ltac:(lra) Sy Sx L). rewrite Rabs_minus_sym, (Rabs_minus_sym (cos x)), Rabs_minus_sym, (Rabs_pos_eq (x - y)) by lra. pose proof (Rle_abs (cos y - cos x)). lra.
Qed.

(** the angle and its sine recovered from a cosine known to within [D] *)
Lemma acos_near t a D : 0 < t < PI -> Rabs (a - cos t) <= D -> 8 * D <= sin t * sin t ->
  -1 < a < 1 /\ 0 <= acos a <= PI /\ cos (acos a) = a /\ 86 / 100 * sin t <= sin (acos a) /\ sin t * Rabs (acos a - t) <= 117 / 100 * D /\ sin t * Rabs (sin (acos a) - sin t) <= 108 / 100 * D.
Proof.
  intros T A L. pose proof (sin_gt_0 t ltac:(lra) ltac:(lra)) as S. pose proof (sin2_cos2 t) as I. unfold Rsqr in I. set (s := sin t) in *. set (c := cos t) in *.
  assert (D0 : 0 <= D) by (pose proof (Rabs_pos (a - c)); lra).
  assert (C1 : - 1 <= c <= 1) by apply COS_bound. assert (S1 : s <= 1) by apply SIN_bound.
  apply Rabs_le_inv in A.
  assert (B : - (1 - s * s / 2) <= c <= 1 - s * s / 2).
  { assert (Q : c * c <= (1 - s * s / 2) * (1 - s * s / 2)). { assert (H : 0 <= (s * s) * (s * s)) by (apply Rle_0_sqr). lra. }
    assert (0 <= 1 - s * s / 2) by nra. split; nra. }
  assert (A1 : -1 < a < 1) by (split; nra).
  assert (R0 : 0 <= acos a <= PI) by apply acos_bound.
  assert (CA : cos (acos a) = a) by (apply cos_acos; lra).
  set (f := acos a) in *. assert (SF0 : 0 <= sin f) by (apply sin_ge_0; lra).
  pose proof (sin2_cos2 f) as J. unfold Rsqr in J. rewrite CA in J.
  assert (Dif : Rabs (sin f * sin f - s * s) <= 2 * D).
  { replace (sin f * sin f - s * s) with ((c - a) * (c + a)) by lra. rewrite Rabs_mult.
    replace (2 * D) with (D * 2) by ring. apply Rmult_le_compat; try apply Rabs_pos; apply Rabs_le; lra. }
  apply Rabs_le_inv in Dif.
  assert (SF : 86 / 100 * s <= sin f).
  { assert (Q : (86 / 100 * s) * (86 / 100 * s) <= sin f * sin f) by nra. nra. }
  repeat split; try assumption; try lra.
  - pose proof (cos_inv_lip f t (86 / 100 * s) R0 ltac:(lra) ltac:(lra) SF ltac:(fold s; lra)) as K. rewrite CA in K. fold c in K.
    assert (K2 : Rabs (a - c) <= D) by (apply Rabs_le; lra). pose proof (Rabs_pos (f - t)). nra.
  - assert (Q : (sin f + s) * Rabs (sin f - s) <= 2 * D).
    { rewrite <- (Rabs_pos_eq (sin f + s)) by lra. rewrite <- Rabs_mult. replace ((sin f + s) * (sin f - s)) with (sin f * sin f - s * s) by ring. apply Rabs_le; lra. }
    pose proof (Rabs_pos (sin f - s)). assert (186 / 100 * s * Rabs (sin f - s) <= (sin f + s) * Rabs (sin f - s)) by (apply Rmult_le_compat_r; lra). lra.
Qed.

(** the factor [t / (2 sin t)] from perturbed values of angle and sine *)
Lemma factor_near t s t' s' dt ds : 0 < t -> t <= 32 / 10 -> 0 < s <= 1 -> Rabs (t' - t) <= dt -> Rabs (s' - s) <= ds -> 8 * ds <= s ->
  0 < s' /\ 7 / 8 * s <= s' /\ s * s * Rabs (t' / 2 / s' - t / 2 / s) <= 572 / 1000 * (s * dt + t * ds).
Proof.
  intros T T3 S Dt Ds L. assert (S' : 7 / 8 * s <= s') by (apply Rabs_le_inv in Ds; lra). assert (P : 0 < s') by lra.
  split; [exact P|split; [exact S'| ]].
  replace (t' / 2 / s' - t / 2 / s) with ((s * (t' - t) - t * (s' - s)) * / (2 * s * s')) by (field; lra).
  rewrite Rabs_mult, (Rabs_pos_eq (/ (2 * s * s'))) by (left; apply Rinv_0_lt_compat; nra).
  assert (N : Rabs (s * (t' - t) - t * (s' - s)) <= s * dt + t * ds).
  { eapply Rle_trans; [apply Rabs_triang| ]. rewrite Rabs_Ropp, !Rabs_mult, (Rabs_pos_eq s), (Rabs_pos_eq t) by lra.
    apply Rplus_le_compat; apply Rmult_le_compat_l; lra. }
  set (n := Rabs (s * (t' - t) - t * (s' - s))) in *. assert (n0 : 0 <= n) by apply Rabs_pos.
  assert (Q : s * s * / (2 * s * s') <= 572 / 1000).
  { apply (Rmult_le_reg_r (2 * s * s')); [nra| ]. rewrite Rmult_assoc, Rinv_l by nra. nra. }
  replace (s * s * (n * / (2 * s * s'))) with (s * s * / (2 * s * s') * n) by ring.
  assert (s * s * / (2 * s * s') * n <= 572 / 1000 * n) by (apply Rmult_le_compat_r; assumption). lra.
Qed.

Section F.
Context {prec emax : Z} {Hp : Prec_gt_0 prec} {He : Prec_lt_emax prec emax} {O : FOracle (binary_float prec emax)}.
Notation fl := (binary_float prec emax).
Notation uro := (uro (prec := prec)).
Notation eta := (eta (prec := prec) (emax := emax)).
Hypothesis Hp11 : (11 <= prec)%Z.
Hypothesis He4 : (4 * prec <= emax)%Z.

(** sine and cosine of floats up to 4 and the arc cosine on [[-1, 1]] are within [e] of the exact ones *)
Definition acos_ok (e : R) : Prop :=
  (forall x : fl, is_finite x = true -> Rabs (B2R x) <= 4 -> trig_ok e x) /\
  (forall x : fl, is_finite x = true -> Rabs (B2R x) <= 1 -> is_finite (facos x) = true /\ Rabs (B2R (facos x) - acos (B2R x)) <= e).
Lemma acos_pos e : acos_ok e -> 0 <= e.
Proof. intros [H _]. apply (trig_pos e (zero : fl)). apply H; [reflexivity| ]. cbn [B2R zero F_Num]. rewrite Rabs_R0. lra. Qed.

Lemma fm_sub (a b : M33 fl) : finm a -> finm b -> fnorm (fun i j => mR a i j - mR b i j) <= 100 ->
  finm (m33_sub a b) /\ dst (mR (m33_sub a b)) (fun i j => mR a i j - mR b i j) <= uro * fnorm (fun i j => mR a i j - mR b i j).
Proof.
  intros F F' L. pose proof (uro_pos (prec := prec)) as P.
  assert (V : forall i j, (i < 3)%nat -> (j < 3)%nat -> mfun (m33_sub a b) i j = sub (mfun a i j) (mfun b i j)).
  { intros i j Hi Hj. clear - Hi Hj. destruct a as ((r00&r01&r02&[])&(r10&r11&r12&[])&(r20&r21&r22&[])&[]), b as ((s00&s01&s02&[])&(s10&s11&s12&[])&(s20&s21&s22&[])&[]).
    destruct i as [ |[ |[ |i]]]; destruct j as [ |[ |[ |j]]]; reflexivity || (exfalso; lia). }
  assert (G : forall i j, (i < 3)%nat -> (j < 3)%nat -> is_finite (mfun (m33_sub a b) i j) = true /\ Rabs (mR (m33_sub a b) i j - (mR a i j - mR b i j)) <= uro * Rabs (mR a i j - mR b i j)).
  { intros i j Hi Hj. unfold mR. rewrite (V i j Hi Hj). pose proof (fnorm_entry (fun i j => mR a i j - mR b i j) i j Hi Hj) as A. cbv beta in A. unfold mR in A.
    apply (sub_ok Hp11 He4); [exact (F i j Hi Hj)|exact (F' i j Hi Hj)| ]. eapply Rle_trans; [exact A|exact L]. }
  split; [intros i j Hi Hj; apply (G i j Hi Hj)| ]. unfold dst.
  eapply Rle_trans; [apply (fnorm_mono _ (fun i j => uro * Rabs (mR a i j - mR b i j))); intros i j Hi Hj; apply (G i j Hi Hj)| ].
  rewrite (fnorm_scal uro), (Rabs_pos_eq uro) by lra. apply Rmult_le_compat_l; [lra| ]. apply Req_le, (fnorm_abs (fun i j => mR a i j - mR b i j)).
Qed.

Lemma fm_scale_big (m : M33 fl) (s : fl) : finm m -> is_finite s = true -> Rabs (B2R s) * fnorm (mR m) <= 100 ->
  finm (m33_scale m s) /\ dst (mR (m33_scale m s)) (fun i j => B2R s * mR m i j) <= uro * (Rabs (B2R s) * fnorm (mR m)) + 3 * eta.
Proof.
  intros F Fs L. pose proof (uro_pos (prec := prec)) as P. assert (T0 : 0 <= eta) by apply eta_pos.
  assert (V : forall i j, (i < 3)%nat -> (j < 3)%nat -> mfun (m33_scale m s) i j = mul (mfun m i j) s).
  { intros i j Hi Hj. clear - Hi Hj. destruct m as ((r00&r01&r02&[])&(r10&r11&r12&[])&(r20&r21&r22&[])&[]). destruct i as [ |[ |[ |i]]]; destruct j as [ |[ |[ |j]]]; reflexivity || (exfalso; lia). }
  assert (G : forall i j, (i < 3)%nat -> (j < 3)%nat -> is_finite (mfun (m33_scale m s) i j) = true /\ Rabs (mR (m33_scale m s) i j - B2R s * mR m i j) <= uro * Rabs (B2R s * mR m i j) + eta).
  { intros i j Hi Hj. unfold mR. rewrite (V i j Hi Hj). pose proof (fnorm_entry (mR m) i j Hi Hj) as A. unfold mR in A.
    rewrite (Rmult_comm (B2R s)). apply (mul_ok Hp11 He4); [exact (F i j Hi Hj)|assumption| ].
    rewrite Rabs_mult, Rmult_comm. eapply Rle_trans; [ |exact L]. apply Rmult_le_compat_l; [apply Rabs_pos|exact A]. }
  split; [intros i j Hi Hj; apply (G i j Hi Hj)| ]. unfold dst.
  eapply Rle_trans; [apply (fnorm_mono _ (fun i j => uro * Rabs (B2R s * mR m i j) + eta)); intros i j Hi Hj; apply (G i j Hi Hj)| ].
  eapply Rle_trans; [apply (fnorm_plus (fun i j => uro * Rabs (B2R s * mR m i j)) (fun _ _ => eta))| ].
  apply Rplus_le_compat; [ |apply fnorm_all; [lra|intros; rewrite Rabs_pos_eq by lra; lra]].
  rewrite (fnorm_scal uro), (Rabs_pos_eq uro) by lra. apply Rmult_le_compat_l; [lra| ].
  rewrite <- (fnorm_scal (B2R s)). apply Req_le. apply fnorm_abs.
Qed.

(** the computed cosine of the rotation angle *)
Lemma trace_cos (m : M33 fl) (a : V3 R) t E : v3_dot a a = 1 -> close3 E m (rodrigues a t) -> E <= / 100 ->
  let x := div (sub (m33_trace m) one) (add one one) in
  is_finite x = true /\ Rabs (B2R x - cos t) <= 3 / 2 * E + 5 * uro.
Proof.
  intros U [F C] L x. rewrite close_dst in C. pose proof (uro_small Hp11) as Us. pose proof (uro_pos (prec := prec)) as P. pose proof (eta_tiny Hp11 He4) as Ht. assert (T0 : 0 <= eta) by apply eta_pos.
  pose proof (rodrigues_trace a t U) as Tr. pose proof (SO3_orth _ (rodrigues_SO3 a t U)) as Or. set (r := rodrigues a t) in *.
  assert (Tr' : mfun r 0 0 + mfun r 1 1 + mfun r 2 2 = 1 + 2 * cos t) by (rewrite <- Tr; clearbody r; clear; destruct r as ((r00&r01&r02&[])&(r10&r11&r12&[])&(r20&r21&r22&[])&[]); reflexivity).
  assert (B : forall i, (i < 3)%nat -> Rabs (B2R (mfun m i i) - mfun r i i) <= E /\ Rabs (mfun r i i) <= 1).
  { intros i Hi. split; [eapply Rle_trans; [exact (fnorm_entry (fun i j => mR m i j - mfun r i j) i i Hi Hi)|exact C]|apply orth_entry; assumption]. }
  destruct (B 0%nat ltac:(lia)) as [B0 B0']. destruct (B 1%nat ltac:(lia)) as [B1 B1']. destruct (B 2%nat ltac:(lia)) as [B2 B2']. clear B.
  assert (Ex : m33_trace m = add (add (mfun m 0 0) (mfun m 1 1)) (mfun m 2 2)) by (clear; destruct m as ((r00&r01&r02&[])&(r10&r11&r12&[])&(r20&r21&r22&[])&[]); reflexivity).
  pose proof (F 0 0 ltac:(lia) ltac:(lia))%nat as F0. pose proof (F 1 1 ltac:(lia) ltac:(lia))%nat as F1. pose proof (F 2 2 ltac:(lia) ltac:(lia))%nat as F2. clear F.
  unfold x. clear x. rewrite Ex. clear Ex. set (m0 := mfun m 0 0) in *. set (m1 := mfun m 1 1) in *. set (m2 := mfun m 2 2) in *. clearbody m0 m1 m2.
  apply Rabs_le_inv in B0, B0', B1, B1', B2, B2'. pose proof (COS_bound t) as Ct. set (c := cos t) in *. clearbody c.
  assert (A1 : Rabs (B2R m0 + B2R m1) <= 202 / 100) by (apply Rabs_le; lra).
  destruct (add_ok Hp11 He4 m0 m1 F0 F1 ltac:(lra)) as [G1 V1].
  assert (W1 : Rabs (B2R (add m0 m1) - (B2R m0 + B2R m1)) <= 202 / 100 * uro) by (eapply Rle_trans; [exact V1| ]; rewrite Rmult_comm; apply Rmult_le_compat_r; lra).
  apply Rabs_le_inv in W1. clear V1. set (y := add m0 m1) in *. clearbody y. apply Rabs_le_inv in A1.
  assert (A2 : Rabs (B2R y + B2R m2) <= 304 / 100) by (apply Rabs_le; lra).
  destruct (add_ok Hp11 He4 y m2 G1 F2 ltac:(lra)) as [G2 V2].
  assert (W2 : Rabs (B2R (add y m2) - (B2R y + B2R m2)) <= 304 / 100 * uro) by (eapply Rle_trans; [exact V2| ]; rewrite Rmult_comm; apply Rmult_le_compat_r; lra).
  apply Rabs_le_inv in W2. clear V2. set (z := add y m2) in *. clearbody z. apply Rabs_le_inv in A2.
  destruct one_val as [O1 O2].
  assert (A3 : Rabs (B2R z - B2R (one : fl)) <= 21 / 10) by (rewrite O2; apply Rabs_le; lra).
  destruct (sub_ok Hp11 He4 z one G2 O1 ltac:(lra)) as [G3 V3'].
  assert (W3 : Rabs (B2R (sub z one) - (B2R z - 1)) <= 21 / 10 * uro) by (rewrite O2 in V3', A3; eapply Rle_trans; [exact V3'| ]; rewrite Rmult_comm; apply Rmult_le_compat_r; lra).
  apply Rabs_le_inv in W3. destruct (two_val (emax := emax) Hp11) as [T1 T2].
  destruct (half_div Hp11 He4 (sub z one) (add one one) G3 T1 T2) as [G4 V4]. split; [exact G4| ]. apply Rabs_le_inv in V4. apply Rabs_le. lra.
Qed.

(** the antisymmetric part of a rotation *)
Lemma rod_anti (a : V3 R) t i j : (i < 3)%nat -> (j < 3)%nat -> mfun (rodrigues a t) i j - mfun (rodrigues a t) j i = 2 * sin t * mfun (skew_from_vec a) i j.
Proof.
  intros Hi Hj. unfold rodrigues. cbv zeta. generalize (cos t) (sin t). clear - Hi Hj. intros c s. destruct a as (x & y & z & []).
  ij i j Hi Hj; lazy -[Rplus Rmult Ropp Rminus IZR]; ring.
Qed.
Lemma skew_norm (a : V3 R) : v3_dot a a = 1 -> fnorm (mfun (skew_from_vec a)) <= 14143 / 10000.
Proof.
  intros Ua. apply fnorm_le; [lra| ]. destruct a as (x&y&z&[]). assert (Ua' : x * x + y * y + z * z = 1) by exact Ua. apply Rle_trans with 2; [ |lra].
  apply Req_le. replace 2 with (2 * (x * x + y * y + z * z)) by lra. unfold fro2, sq_sum.
  lazy [sumn mfun skew_from_vec List.nth List.map alist ahd atl acons anil fst snd vfun ix0 ix1 ix2 neg zero add mul R_Num R_Signed Nat.div Nat.modulo Nat.divmod Nat.sub]. ring.
Qed.
Lemma skew_scaled (a : V3 R) t i j : (i < 3)%nat -> (j < 3)%nat -> mfun (skew_from_vec (v3_scale a t)) i j = t * mfun (skew_from_vec a) i j.
Proof. intros Hi Hj. destruct a as (x & y & z & []). ij i j Hi Hj; lazy -[Rplus Rmult Ropp Rminus IZR]; ring. Qed.

Lemma pi_32 : PI <= 32 / 10.
Proof. pose proof (PI_ineq 9) as [_ Q]. unfold tg_alt, PI_tg in Q. cbn -[INR] in Q. rewrite !INR_IZR_INZ in Q. cbn [Z.of_nat Pos.of_succ_nat Pos.succ] in Q. lra. Qed.

Lemma leb_false (x y : fl) : is_finite x = true -> is_finite y = true -> B2R y < B2R x -> leb x y = false.
Proof.
  intros Fx Fy L. change (leb x y) with (Bleb x y). rewrite Bleb_correct by assumption. apply Rle_bool_false, L.
Qed.

(** the factor of the regular branch *)
Lemma log_factor (m : M33 fl) (a : V3 R) t E e : v3_dot a a = 1 -> 0 < t < PI -> close3 E m (rodrigues a t) -> acos_ok e ->
  100 * (E + e + 5 * uro) <= sin t * sin t ->
  exists k : fl, matrix_log m = m33_scale (m33_sub m (m33_transpose m)) k /\ is_finite k = true /\
    sin t * Rabs (B2R k) <= 19 / 10 /\ sin t * sin t * sin t * Rabs (B2R k - t / 2 / sin t) <= 265 / 100 * (3 / 2 * E + 5 * uro) + 425 / 100 * e + 19 / 10 * uro.
Proof.
  intros Ua T C A L. pose proof (uro_small Hp11) as Us. pose proof (uro_pos (prec := prec)) as P. pose proof (eta_tiny Hp11 He4) as Ht. assert (T0 : 0 <= eta) by apply eta_pos.
  pose proof (close_pos _ _ _ C) as E0. pose proof (acos_pos e A) as e0. pose proof (sin_gt_0 t ltac:(lra) ltac:(lra)) as S0. pose proof (SIN_bound t) as [_ S1].
  assert (SS : sin t * sin t <= 1) by nra.
  destruct (trace_cos m a t E Ua C ltac:(lra)) as [Fx Vx]. cbv zeta in Fx, Vx. set (D := 3 / 2 * E + 5 * uro) in *. assert (D0 : 0 <= D) by (unfold D; lra).
  assert (LD : 66 * D + 100 * e <= sin t * sin t) by (unfold D; lra). clearbody D.
  unfold matrix_log. set (x := div (sub (m33_trace m) one) (add one one)) in *.
  destruct (acos_near t (B2R x) D T Vx ltac:(lra)) as (X1 & Fr & CA & SA & AT & AS).
  destruct one_val as [O1 O2].
  rewrite (leb_false one x O1 Fx) by (rewrite O2; lra).
  rewrite (leb_false x (neg one) Fx) by (try (change (neg (one : fl)) with (Bopp (one : fl)); rewrite ?is_finite_Bopp, ?B2R_Bopp, ?O2; assumption || lra)).
  cbv zeta. set (th := facos x). exists (div (div th (add one one)) (fsin th)). split; [reflexivity| ].
  destruct A as [A1 A2]. destruct (A2 x Fx ltac:(apply Rabs_le; lra)) as [Fth Vth]. fold th in Fth, Vth.
  pose proof pi_32 as P32. 
  assert (Bth : Rabs (B2R th) <= 4).
  { apply Rabs_le_inv in Vth. apply Rabs_le. lra. }
  destruct (A1 th Fth Bth) as [[Fs Vs] _]. set (s' := fsin th) in *. clearbody s' th.
  set (s := sin t) in *. set (f := acos (B2R x)) in *.
  assert (DT : Rabs (B2R th - t) <= 117 / 100 * D / s + e).
  { replace (B2R th - t) with ((f - t) + (B2R th - f)) by ring. eapply Rle_trans; [apply Rabs_triang| ]. apply Rplus_le_compat; [ |exact Vth].
    apply (Rmult_le_reg_l s); [exact S0| ]. eapply Rle_trans; [exact AT| ]. apply Req_le. field. lra. }
  assert (DS : Rabs (B2R s' - s) <= 108 / 100 * D / s + 2 * e).
  { replace (B2R s' - s) with ((sin f - s) + ((sin (B2R th) - sin f) + (B2R s' - sin (B2R th)))) by ring. eapply Rle_trans; [apply Rabs_triang| ]. apply Rplus_le_compat.
    - apply (Rmult_le_reg_l s); [exact S0| ]. eapply Rle_trans; [exact AS| ]. apply Req_le. field. lra.
    - eapply Rle_trans; [apply Rabs_triang| ]. pose proof (sin_lip (B2R th) f). lra. }
  assert (Ds' : s * (D / s) = D) by (field; lra). set (q := D / s) in *. replace (117 / 100 * D / s) with (117 / 100 * q) in DT by (unfold q; field; lra). replace (108 / 100 * D / s) with (108 / 100 * q) in DS by (unfold q; field; lra).
  assert (q0 : 0 <= q) by (unfold q; apply Rmult_le_pos; [lra|left; apply Rinv_0_lt_compat, S0]). clearbody q.
  assert (Q66 : 66 * q + 100 * e <= s).
  { apply (Rmult_le_reg_l s); [exact S0| ]. assert (s * e <= 1 * e) by (apply Rmult_le_compat_r; lra). lra. }
  destruct (factor_near t s (B2R th) (B2R s') _ _ ltac:(lra) ltac:(lra) ltac:(lra) DT DS ltac:(lra)) as (Sp & S78 & K).
  destruct (two_val (emax := emax) Hp11) as [T1 T2]. destruct (half_div Hp11 He4 th (add one one) Fth T1 T2) as [Fh Vh]. set (h := div th (add one one)) in *. clearbody h.
  assert (KB : s * Rabs (B2R h / B2R s') <= 187 / 100).
  { unfold Rdiv. rewrite Rabs_mult, (Rabs_pos_eq (/ B2R s')) by (left; apply Rinv_0_lt_compat, Sp).
    assert (H1 : Rabs (B2R h) <= 163 / 100) by (apply Rabs_le_inv in Vh, DT; apply Rabs_le; lra).
    assert (H2 : s * / B2R s' <= 8 / 7) by (apply (Rmult_le_reg_r (B2R s')); [lra| ]; rewrite Rmult_assoc, Rinv_l by lra; lra).
    replace (s * (Rabs (B2R h) * / B2R s')) with (Rabs (B2R h) * (s * / B2R s')) by ring. apply Rle_trans with (163 / 100 * (8 / 7)); [ |lra].
    apply Rmult_le_compat; [apply Rabs_pos|apply Rmult_le_pos; [lra|left; apply Rinv_0_lt_compat, Sp]|exact H1|exact H2]. }
  assert (Big : 2 * Rabs (B2R h / B2R s') + 2 < bpow radix2 emax).
  { assert (H : Rabs (B2R h / B2R s') * uro <= 1).
    { assert (U2 : uro <= s * s) by lra. pose proof (Rabs_pos (B2R h / B2R s')) as R0. set (w := Rabs (B2R h / B2R s')) in *.
      assert (U3 : 25 * uro <= s * s) by lra. assert (w * (25 * uro) <= w * (s * s)) by (apply Rmult_le_compat_l; lra).
      assert (s * w * s <= 187 / 100 * 1) by (apply Rmult_le_compat; [apply Rmult_le_pos; lra|lra|exact KB|lra]). lra. }
    assert (B : 2 * / uro + 2 < bpow radix2 emax).
    { assert (Ru : / uro = 2 * bpow radix2 (prec - 1)). { unfold FloatFacts.uro. rewrite Rinv_mult, Rinv_inv, <- bpow_opp. f_equal. f_equal. lia. }
      rewrite Ru. assert (W : bpow radix2 (prec + 3) <= bpow radix2 emax) by (apply bpow_le; lia).
      replace (prec + 3)%Z with ((prec - 1) + 4)%Z in W by lia. rewrite bpow_plus in W. change (bpow radix2 4) with 16 in W.
      assert (1 <= bpow radix2 (prec - 1)) by (change 1 with (bpow radix2 0); apply bpow_le; lia). lra. }
    eapply Rle_lt_trans; [ |exact B]. apply Rplus_le_compat_r. apply Rmult_le_compat_l; [lra| ].
    apply (Rmult_le_reg_r uro); [exact P| ]. rewrite Rinv_l by lra. exact H. }
  assert (Ns : B2R s' <> 0) by lra.
  destruct (div_big Hp11 He4 h s' Fh Ns Big) as (Fk & g & hh & Lg & Lh & Vk). change (Bdiv mode_NE h s') with (div h s') in Fk, Vk. set (k := div h s') in *. clearbody k.
  split; [exact Fk| ].
  set (w := B2R h / B2R s') in *.
  assert (DH : s * Rabs (w - B2R th / 2 / B2R s') <= 8 / 7 * eta).
  { unfold w. replace (B2R h / B2R s' - B2R th / 2 / B2R s') with ((B2R h - B2R th / 2) * / B2R s') by (field; lra). rewrite Rabs_mult, (Rabs_pos_eq (/ B2R s')) by (left; apply Rinv_0_lt_compat, Sp).
    assert (H2 : s * / B2R s' <= 8 / 7) by (apply (Rmult_le_reg_r (B2R s')); [lra| ]; rewrite Rmult_assoc, Rinv_l by lra; lra).
    replace (s * (Rabs (B2R h - B2R th / 2) * / B2R s')) with ((s * / B2R s') * Rabs (B2R h - B2R th / 2)) by ring.
    apply Rmult_le_compat; [apply Rmult_le_pos; [lra|left; apply Rinv_0_lt_compat, Sp]|apply Rabs_pos|exact H2|exact Vh]. }
  assert (DK : s * Rabs (B2R k - w) <= 188 / 100 * uro).
  { rewrite Vk. replace (w * (1 + g) + hh - w) with (w * g + hh) by ring. eapply Rle_trans; [apply Rmult_le_compat_l; [lra|apply Rabs_triang]| ]. rewrite Rabs_mult, Rmult_plus_distr_l.
    assert (s * (Rabs w * Rabs g) <= 187 / 100 * uro). { replace (s * (Rabs w * Rabs g)) with (s * Rabs w * Rabs g) by ring. apply Rmult_le_compat; [pose proof (Rabs_pos w); nra|apply Rabs_pos|exact KB|exact Lg]. }
    assert (s * Rabs hh <= 1 * eta) by (apply Rmult_le_compat; [lra|apply Rabs_pos|lra|exact Lh]). lra. }
  split.
  - replace (B2R k) with (w + (B2R k - w)) by ring. pose proof (Rabs_triang w (B2R k - w)) as Q.
    assert (s * Rabs (w + (B2R k - w)) <= s * (Rabs w + Rabs (B2R k - w))) by (apply Rmult_le_compat_l; lra). lra.
  - set (d1 := Rabs (B2R k - w)) in *. set (d2 := Rabs (w - B2R th / 2 / B2R s')) in *. set (d3 := Rabs (B2R th / 2 / B2R s' - t / 2 / s)) in *.
    assert (TR : Rabs (B2R k - t / 2 / s) <= d1 + (d2 + d3)).
    { replace (B2R k - t / 2 / s) with ((B2R k - w) + ((w - B2R th / 2 / B2R s') + (B2R th / 2 / B2R s' - t / 2 / s))) by ring.
      eapply Rle_trans; [apply Rabs_triang| ]. apply Rplus_le_compat_l. apply Rabs_triang. }
    assert (p1 : 0 <= d1) by apply Rabs_pos. assert (p2 : 0 <= d2) by apply Rabs_pos. assert (p3 : 0 <= d3) by apply Rabs_pos.
    assert (K3 : s * s * s * d3 <= 265 / 100 * D + 425 / 100 * e).
    { replace (s * s * s * d3) with (s * (s * s * d3)) by ring. eapply Rle_trans; [apply Rmult_le_compat_l; [lra|exact K]| ].
      replace (s * (572 / 1000 * (s * (117 / 100 * q + e) + t * (108 / 100 * q + 2 * e)))) with (572 / 1000 * (117 / 100 * (s * q) * s + e * (s * s) + t * (108 / 100 * (s * q)) + 2 * t * e * s)) by ring.
      rewrite Ds'. assert (D * s <= D * 1) by (apply Rmult_le_compat_l; lra). assert (e * (s * s) <= e * 1) by (apply Rmult_le_compat_l; lra). assert (t * D <= 32 / 10 * D) by (apply Rmult_le_compat_r; lra). assert (t * e <= 32 / 10 * e) by (apply Rmult_le_compat_r; lra).
      assert (t * e * s <= t * e * 1) by (apply Rmult_le_compat_l; [apply Rmult_le_pos; lra|lra]).
      lra. }
    assert (K1 : s * s * s * d1 <= 188 / 100 * uro) by (replace (s * s * s * d1) with (s * s * (s * d1)) by ring; assert (s * s * (s * d1) <= 1 * (s * d1)) by (apply Rmult_le_compat_r; [apply Rmult_le_pos; lra|exact SS]); lra).
    assert (K2 : s * s * s * d2 <= 8 / 7 * eta) by (replace (s * s * s * d2) with (s * s * (s * d2)) by ring; assert (s * s * (s * d2) <= 1 * (s * d2)) by (apply Rmult_le_compat_r; [apply Rmult_le_pos; lra|exact SS]); lra).
    assert (s * s * s * Rabs (B2R k - t / 2 / s) <= s * s * s * (d1 + (d2 + d3))) by (apply Rmult_le_compat_l; [apply Rmult_le_pos; [apply Rmult_le_pos; lra|lra]|exact TR]). lra.
Qed.

Lemma c99_regular_partial : forall e E (m : M33 fl) (a : V3 R) t, v3_dot a a = 1 -> 0 < t < PI -> close3 E m (rodrigues a t) -> acos_ok e ->
  100 * (E + e + 5 * uro) <= sin t * sin t ->
  close3 ((16 * E + 13 * e + 60 * uro) / (sin t * sin t)) (matrix_log m) (skew_from_vec (v3_scale a t)).
Proof.
  intros e E m a t Ua T C A L. pose proof (uro_small Hp11) as Us. pose proof (uro_pos (prec := prec)) as P. pose proof (eta_tiny Hp11 He4) as Ht. assert (T0 : 0 <= eta) by apply eta_pos.
  pose proof (close_pos _ _ _ C) as E0. pose proof (acos_pos e A) as e0. pose proof (sin_gt_0 t ltac:(lra) ltac:(lra)) as S0. pose proof (SIN_bound t) as [_ S1].
  assert (SS : sin t * sin t <= 1) by nra. assert (SS1 : sin t * sin t <= sin t) by nra.
  destruct (log_factor m a t E e Ua T C A L) as (k & -> & Fk & KB & KE).
  destruct C as [Fm C]. rewrite close_dst in C. set (s := sin t) in *.
  set (W := fun i j => mR m i j - mR (m33_transpose m) i j). set (W0 := fun i j => 2 * s * mfun (skew_from_vec a) i j).
  assert (Tm : forall i j, (i < 3)%nat -> (j < 3)%nat -> mfun (m33_transpose m) i j = mfun m j i).
  { clear. intros i j Hi Hj. destruct m as ((r00&r01&r02&[])&(r10&r11&r12&[])&(r20&r21&r22&[])&[]). ij i j Hi Hj; reflexivity. }
  assert (Ft : finm (m33_transpose m)) by (intros i j Hi Hj; rewrite (Tm i j Hi Hj); apply Fm; assumption).
  assert (DW : dst W W0 <= 2 * E).
  { set (X := fun i j => mR m i j - mfun (rodrigues a t) i j). 
    assert (XT : fnorm (fun i j => - 1 * X j i) <= E). { rewrite (fnorm_scal (-1) (fun i j => X j i)), Rabs_left by lra. assert (fnorm (fun i j => X j i) = fnorm X). { unfold fnorm. unfold nrm, sq_sum. f_equal. lazy [sumn add mul zero R_Num Nat.div Nat.modulo Nat.divmod fst snd Nat.sub]. ring. } change (fnorm X <= E) in C. lra. }
    unfold dst. rewrite (fnorm_ext _ (fun i j => X i j + - 1 * X j i)).
    - eapply Rle_trans; [apply (fnorm_plus X (fun i j => - 1 * X j i))| ]. change (fnorm X <= E) in C. lra.
    - intros i j Hi Hj. unfold W, W0, X. pose proof (rod_anti a t i j Hi Hj) as RA. fold s in RA. unfold mR at 2. rewrite (Tm i j Hi Hj). unfold mR. lra. }
  pose proof (skew_norm a Ua) as SN. set (K := mfun (skew_from_vec a)) in *.
  assert (NW0 : fnorm W0 <= 28286 / 10000 * s). { unfold W0. rewrite (fnorm_scal (2 * s) K), Rabs_pos_eq by lra. assert (2 * s * fnorm K <= 2 * s * (14143 / 10000)) by (apply Rmult_le_compat_l; lra). lra. }
  assert (NW : fnorm W <= 28286 / 10000 * s + 2 * E) by (eapply Rle_trans; [apply (fnorm_dst W W0)|lra]).
  destruct (fm_sub m (m33_transpose m) Fm Ft ltac:(fold W; lra)) as [Fd Dd]. fold W in Dd. set (d := m33_sub m (m33_transpose m)) in *.
  assert (Es : 100 * E <= s) by lra.
  assert (uW : uro * fnorm W <= 286 / 100 * s * uro) by (rewrite Rmult_comm; apply Rmult_le_compat_r; lra).
  assert (DdW : dst (mR d) W0 <= 2 * E + 286 / 100 * s * uro) by (eapply Rle_trans; [apply (dst_tri _ W)|lra]).
  assert (Nd : fnorm (mR d) <= 286 / 100 * s) by (eapply Rle_trans; [apply (fnorm_dst _ W0)| ]; assert (s * uro <= s * / 2048) by (apply Rmult_le_compat_l; lra); lra).
  pose proof (fnorm_pos (mR d)) as Nd0. pose proof (Rabs_pos (B2R k)) as k0.
  assert (kd : Rabs (B2R k) * fnorm (mR d) <= 544 / 100).
  { apply Rle_trans with (Rabs (B2R k) * (286 / 100 * s)); [apply Rmult_le_compat_l; assumption| ]. lra. }
  destruct (fm_scale_big d k Fd Fk ltac:(lra)) as [Fl Dl]. set (l := m33_scale d k) in *.
  split; [exact Fl| ]. rewrite close_dst.
  assert (B1 : dst (mR l) (fun i j => B2R k * mR d i j) <= 544 / 100 * uro + 3 * eta) by (assert (uro * (Rabs (B2R k) * fnorm (mR d)) <= uro * (544 / 100)) by (apply Rmult_le_compat_l; lra); lra).
  assert (B2 : dst (fun i j => B2R k * mR d i j) (fun i j => B2R k * W0 i j) <= Rabs (B2R k) * (2 * E + 286 / 100 * s * uro)).
  { unfold dst. rewrite (fnorm_ext _ (fun i j => B2R k * (mR d i j - W0 i j))) by (intros; ring). rewrite (fnorm_scal (B2R k)). apply Rmult_le_compat_l; [exact k0|exact DdW]. }
  assert (B3 : dst (fun i j => B2R k * W0 i j) (mfun (skew_from_vec (v3_scale a t))) <= Rabs (B2R k - t / 2 / s) * (28286 / 10000 * s)).
  { unfold dst. rewrite (fnorm_ext _ (fun i j => (B2R k - t / 2 / s) * W0 i j)).
    - rewrite (fnorm_scal (B2R k - t / 2 / s)). apply Rmult_le_compat_l; [apply Rabs_pos|exact NW0].
    - intros i j Hi Hj. rewrite (skew_scaled a t i j Hi Hj). unfold W0, K. field. lra. }
  apply (Rmult_le_reg_r (s * s)); [nra| ]. replace ((16 * E + 13 * e + 60 * uro) / (s * s) * (s * s)) with (16 * E + 13 * e + 60 * uro) by (field; lra).
  assert (TR : dst (mR l) (mfun (skew_from_vec (v3_scale a t))) <= 544 / 100 * uro + 3 * eta + (Rabs (B2R k) * (2 * E + 286 / 100 * s * uro) + Rabs (B2R k - t / 2 / s) * (28286 / 10000 * s))).
  { eapply Rle_trans; [apply (dst_tri _ (fun i j => B2R k * mR d i j))| ]. apply Rplus_le_compat; [exact B1| ].
    eapply Rle_trans; [apply (dst_tri _ (fun i j => B2R k * W0 i j))| ]. apply Rplus_le_compat; assumption. }
  set (z := dst (mR l) (mfun (skew_from_vec (v3_scale a t)))) in *. clearbody z. set (kk := Rabs (B2R k)) in *. set (dk := Rabs (B2R k - t / 2 / s)) in *.
  assert (H1 : z * (s * s) <= (544 / 100 * uro + 3 * eta + (kk * (2 * E + 286 / 100 * s * uro) + dk * (28286 / 10000 * s))) * (s * s)) by (apply Rmult_le_compat_r; [nra|exact TR]).
  eapply Rle_trans; [exact H1| ].
  replace ((544 / 100 * uro + 3 * eta + (kk * (2 * E + 286 / 100 * s * uro) + dk * (28286 / 10000 * s))) * (s * s)) with
    ((544 / 100 * uro + 3 * eta) * (s * s) + (s * kk) * (2 * E * s + 286 / 100 * (s * s) * uro) + 28286 / 10000 * (s * s * s * dk)) by ring.
  assert (H2 : (544 / 100 * uro + 3 * eta) * (s * s) <= (544 / 100 * uro + 3 * eta) * 1) by (apply Rmult_le_compat_l; lra).
  assert (H3 : (s * kk) * (2 * E * s + 286 / 100 * (s * s) * uro) <= 19 / 10 * (2 * E + 286 / 100 * uro)).
  { assert (E * s <= E * 1) by (apply Rmult_le_compat_l; lra). assert ((s * s) * uro <= 1 * uro) by (apply Rmult_le_compat_r; lra).
    assert (0 <= E * s) by (apply Rmult_le_pos; lra). assert (0 <= s * s * uro) by (apply Rmult_le_pos; nra).
    apply Rmult_le_compat; [apply Rmult_le_pos; lra|lra|exact KB|lra]. }
  lra.
Qed.

(** ** back through the exponential *)
Lemma norm3_ok (v : V3 fl) : (forall k, (k < 3)%nat -> is_finite (vfun v k) = true) -> 200 * uro <= len3 v * len3 v -> len3 v * len3 v <= 25 ->
  norm_ok v /\ nearly_zero (v3_norm2 v) = false.
Proof.
  intros F L1 L2. pose proof (uro_small Hp11) as U. pose proof (uro_pos (prec := prec)) as P. pose proof (eta_sq Hp11 He4) as Es. pose proof (eta_tiny Hp11 He4) as Et. assert (T0 : 0 <= eta) by apply eta_pos.
  pose proof (F 0%nat ltac:(lia)) as F0. pose proof (F 1%nat ltac:(lia)) as F1. pose proof (F 2%nat ltac:(lia)) as F2. clear F.
  assert (Ev : v3_norm2 v = fsqrt (add (add (mul (vfun v 0) (vfun v 0)) (mul (vfun v 1) (vfun v 1))) (mul (vfun v 2) (vfun v 2)))) by (destruct v as (x&y&z&[]); reflexivity).
  unfold norm_ok. rewrite Ev. clear Ev. unfold len3 in L1, L2. set (x := vfun v 0) in *. set (y := vfun v 1) in *. set (z := vfun v 2) in *. clearbody x y z.
  assert (X2 : 0 <= B2R x * B2R x) by nra. assert (Y2 : 0 <= B2R y * B2R y) by nra. assert (Z2 : 0 <= B2R z * B2R z) by nra.
  rewrite sqrt_sqrt in L1, L2 by lra. set (S := B2R x * B2R x + B2R y * B2R y + B2R z * B2R z). assert (SE : B2R x ^ 2 + B2R y ^ 2 + B2R z ^ 2 = S) by (unfold S; ring). rewrite SE in L1, L2.
  assert (Nn : forall z, 0 <= z -> 0 <= round radix2 (FLT_exp (3 - emax - prec) prec) ZnearestE z).
  { intros w Hz. apply round_ge_generic; [apply FLT_exp_valid; exact Hp|apply valid_rnd_N|apply generic_format_0|exact Hz]. }
  assert (M : forall w : fl, is_finite w = true -> B2R w * B2R w <= 25 -> is_finite (mul w w) = true /\ 0 <= B2R (mul w w) /\ Rabs (B2R (mul w w) - B2R w * B2R w) <= / 2048 * (B2R w * B2R w) + eta).
  { intros w Fw Lw. assert (W2 : 0 <= B2R w * B2R w) by nra. destruct (mul_ok Hp11 He4 w w Fw Fw ltac:(rewrite Rabs_pos_eq; lra)) as [F1' E1]. split; [exact F1'|split].
    - destruct (mult_finite w w F1') as (_ & _ & V). change (mul w w) with (Bmult mode_NE w w). rewrite V. apply Nn, W2.
    - rewrite (Rabs_pos_eq (B2R w * B2R w)) in E1 by lra. assert (uro * (B2R w * B2R w) <= / 2048 * (B2R w * B2R w)) by (apply Rmult_le_compat_r; lra). lra. }
  unfold S in L2. destruct (M x F0 ltac:(lra)) as (A1 & A2 & A3). destruct (M y F1 ltac:(lra)) as (B1 & B2 & B3). destruct (M z F2 ltac:(lra)) as (C1 & C2 & C3). clear M.
  set (a := mul x x) in *. set (b := mul y y) in *. set (c := mul z z) in *. clearbody a b c. apply Rabs_le_inv in A3, B3, C3.
  assert (Ad : forall p q : fl, is_finite p = true -> is_finite q = true -> 0 <= B2R p -> 0 <= B2R q -> B2R p + B2R q <= 50 -> is_finite (add p q) = true /\ 0 <= B2R (add p q) /\ Rabs (B2R (add p q) - (B2R p + B2R q)) <= / 2048 * (B2R p + B2R q)).
  { intros p q Fp Fq Pp Pq L. destruct (add_ok Hp11 He4 p q Fp Fq ltac:(rewrite Rabs_pos_eq; lra)) as [F3 E3]. split; [exact F3|split].
    - destruct (plus_finite p q F3) as (_ & _ & V). change (add p q) with (Bplus mode_NE p q). rewrite V. apply Nn. lra.
    - rewrite (Rabs_pos_eq (B2R p + B2R q)) in E3 by lra. assert (uro * (B2R p + B2R q) <= / 2048 * (B2R p + B2R q)) by (apply Rmult_le_compat_r; lra). lra. }
  destruct (Ad a b A1 B1 A2 B2 ltac:(lra)) as (D1 & D2 & D3). set (d := add a b) in *. clearbody d. apply Rabs_le_inv in D3.
  destruct (Ad d c D1 C1 D2 C2 ltac:(lra)) as (G1 & G2 & G3). set (g := add d c) in *. clearbody g. apply Rabs_le_inv in G3. clear Ad Nn.
  assert (GL : 99 / 100 * S <= B2R g) by (unfold S in *; lra). clear A3 B3 C3 D3 G3.
  assert (Fs : is_finite (fsqrt g) = true).
  { change (fsqrt g) with (Bsqrt mode_NE g). destruct (Bsqrt_correct prec emax Hp He mode_NE g) as (_ & Q & _). rewrite Q. clear Q GL.
    destruct g as [s|s| |s m k Hx]; try discriminate G1; [reflexivity| ]. destruct s; [exfalso|reflexivity]. cbn [B2R cond_Zopp] in G2.
    assert (X : F2R (Defs.Float radix2 (Z.neg m) k) < 0) by (apply F2R_lt_0; cbn; lia). cbn [Z.opp] in G2. lra. }
  destruct (sqrt_round g) as (e4 & L4 & V4). change (Bsqrt mode_NE g) with (fsqrt g) in V4. apply Rabs_le_inv in L4.
  pose proof (sqrt_sqrt (B2R g) G2) as QC. pose proof (sqrt_pos (B2R g)) as G0. set (h := sqrt (B2R g)) in *.
  assert (NL : 99 / 100 * h <= B2R (fsqrt g)) by (rewrite V4; rewrite Rmult_comm; apply Rmult_le_compat_l; lra).
  assert (NN : 190 * uro <= B2R (fsqrt g) * B2R (fsqrt g)).
  { assert ((99 / 100 * h) * (99 / 100 * h) <= B2R (fsqrt g) * B2R (fsqrt g)) by (apply Rmult_le_compat; lra). lra. }
  split; [split; [exact Fs| ]| ].
  - assert (uro * (190 * uro) <= uro * (B2R (fsqrt g) * B2R (fsqrt g))) by (apply Rmult_le_compat_l; lra). lra.
  - rewrite nearly_zero_float. destruct epsilon_val as [Fe Ve]. rewrite Bltb_correct by (rewrite ?is_finite_Babs; assumption). rewrite B2R_Babs, Ve. apply Rlt_bool_false.
    rewrite Rabs_pos_eq by lra. assert (W0 : 0 <= B2R (fsqrt g)) by lra. assert (Wu : bpow radix2 (1 - prec) = 2 * uro) by (unfold FloatFacts.uro; lra). rewrite Wu. set (w := B2R (fsqrt g)) in *. clearbody w.
    destruct (Rle_lt_dec (2 * uro) w) as [K|K]; [exact K|exfalso]. assert (w * w <= (2 * uro) * 1) by (apply Rmult_le_compat; lra). lra.
Qed.

Lemma c99_exp_log_partial : forall e E (m : M33 fl) (a : V3 R) t, v3_dot a a = 1 -> 0 < t < PI -> close3 E m (rodrigues a t) -> acos_ok e ->
  100 * (E + e + 5 * uro) <= sin t * sin t -> let d := (16 * E + 13 * e + 60 * uro) / (sin t * sin t) in 1000 * d <= t ->
  exists m', matrix_exponential (matrix_log m) = Ok m' /\ close3 (33 * d / t) m' (rodrigues a t).
Proof.
  intros e E m a t Ua T C A L d Ld. pose proof (c99_regular_partial e E m a t Ua T C A L) as [Fl Cl]. fold d in Cl. set (l := matrix_log m) in *. clearbody l. rewrite close_dst in Cl.
  pose proof (uro_small Hp11) as U. pose proof (uro_pos (prec := prec)) as P. pose proof (eta_tiny Hp11 He4) as Et. assert (T0 : 0 <= eta) by apply eta_pos.
  pose proof (close_pos _ _ _ C) as E0. pose proof (acos_pos e A) as e0. pose proof (sin_gt_0 t ltac:(lra) ltac:(lra)) as S0. pose proof (SIN_bound t) as [_ S1]. pose proof pi_32 as P32.
  assert (st : sin t <= t) by (pose proof (sin_abs t) as Q; rewrite !Rabs_pos_eq in Q by lra; exact Q).
  assert (SS : 0 < sin t * sin t <= 1) by nra.
  assert (dL : 16 * E + 13 * e + 60 * uro <= d). { unfold d. apply (Rmult_le_reg_r (sin t * sin t)); [lra| ]. unfold Rdiv. rewrite Rmult_assoc, Rinv_l, Rmult_1_r by lra. assert (0 <= 16 * E + 13 * e + 60 * uro) by lra. nra. }
  assert (tt : 500 * uro <= t * t) by (apply Rle_trans with (sin t * sin t); [lra|apply Rmult_le_compat; lra]).
  assert (d0 : 0 < d) by lra. clearbody d. clear L C.
  set (v := skew_to_vec l).
  assert (SC : forall i j, (i < 3)%nat -> (j < 3)%nat -> mfun (skew_from_vec (v3_scale a t)) i j = t * mfun (skew_from_vec a) i j) by (intros; apply skew_scaled; assumption).
  pose proof (skew_norm a Ua) as SN. 
  assert (Vn : nrm 3 (fun k => vR v k - t * vfun a k) <= d).
  { eapply Rle_trans; [ |exact Cl]. unfold dst. apply nrm_le; [apply fnorm_pos| ]. rewrite fnorm_fro.
    clear. unfold v, vR, fro2, sq_sum, mR. destruct l as ((r00&r01&r02&[])&(r10&r11&r12&[])&(r20&r21&r22&[])&[]), a as (x&y&z&[]). 
    lazy [sumn mfun vfun skew_to_vec skew_from_vec v3_scale List.nth List.map alist ahd atl acons anil fst snd ix0 ix1 ix2 neg zero add mul R_Num R_Signed].
    set (a1 := B2R r21). set (a2 := B2R r02). set (a3 := B2R r10). 
    assert (Sq : forall w : R, 0 <= w * w) by (intros; nra).
    pose proof (Sq (B2R r00 - 0)). pose proof (Sq (B2R r01 - - (z * t))). pose proof (Sq (B2R r11 - 0)). pose proof (Sq (B2R r12 - - (x * t))). pose proof (Sq (B2R r20 - - (y * t))). pose proof (Sq (B2R r22 - 0)). 
    rewrite (Rmult_comm t x), (Rmult_comm t y), (Rmult_comm t z). lra. }
  assert (Fv : forall k, (k < 3)%nat -> is_finite (vfun v k) = true).
  { intros k Hk. pose proof (Fl 2 1 ltac:(lia) ltac:(lia))%nat as G0. pose proof (Fl 0 2 ltac:(lia) ltac:(lia))%nat as G1. pose proof (Fl 1 0 ltac:(lia) ltac:(lia))%nat as G2. revert G0 G1 G2. unfold v. clear - Hk.
    destruct l as ((r00&r01&r02&[])&(r10&r11&r12&[])&(r20&r21&r22&[])&[]). intros G0 G1 G2. destruct k as [ |[ |[ |k]]]; [exact G0|exact G1|exact G2|lia]. }
  assert (Na : nrm 3 (fun k => t * vfun a k) = t).
  { rewrite (nrm_scal 3 t (vfun a)), Rabs_pos_eq by lra. replace (nrm 3 (vfun a)) with 1; [ring| ]. unfold nrm. rewrite <- sqrt_1. f_equal. destruct a as (x&y&z&[]). assert (Q : x * x + y * y + z * z = 1) by exact Ua. unfold sq_sum. lazy [sumn add mul zero R_Num vfun List.nth alist ahd atl acons anil fst snd]. lra. }
  assert (LV : Rabs (len3 v - t) <= d).
  { rewrite len3_nrm, <- Na. eapply Rle_trans; [ |exact Vn]. apply nrm_diff. }
  apply Rabs_le_inv in LV.
  assert (LL : 99 / 100 * (t * t) <= len3 v * len3 v <= 12) by (split; [assert ((998 / 1000 * t) * (998 / 1000 * t) <= len3 v * len3 v) by (apply Rmult_le_compat; lra); nra|assert (len3 v * len3 v <= (33 / 10) * (33 / 10)) by (apply Rmult_le_compat; lra); lra]).
  destruct (norm3_ok v Fv ltac:(lra) ltac:(lra)) as [Nv NZ]. destruct (norm_val Hp11 v Nv) as [Np NV]. destruct (dir_val Hp11 He4 v Nv) as (w & Ew & _).
  set (n := v3_norm2 v) in *. set (N := len3 v) in *.
  exists (rod_fl (m33_div l n) (fsin n) (fcos n)). split.
  { unfold matrix_exponential. fold v. fold n. rewrite NZ. unfold axis_angle. rewrite Ew. reflexivity. }
  assert (uN : 28 / 10 * uro * N <= 10 * uro). { replace (28 / 10 * uro * N) with (uro * (28 / 10 * N)) by ring. rewrite (Rmult_comm 10). apply Rmult_le_compat_l; lra. }
  assert (nt : Rabs (B2R n - t) <= 117 / 100 * d). { apply Rabs_le_inv in NV. apply Rabs_le. lra. }
  destruct Nv as [Fn _]. apply Rabs_le_inv in nt.
  assert (n4 : Rabs (B2R n) <= 4) by (apply Rabs_le; lra). destruct A as [A1 _]. destruct (A1 n Fn n4) as [[Fs Es] [Fc Ec]].
  assert (np : 99 / 100 * t <= B2R n) by lra.
  set (K := mfun (skew_from_vec a)) in *.
  assert (NLK : dst (mR l) (fun i j => B2R n * K i j) <= 266 / 100 * d).
  { eapply Rle_trans; [apply (dst_tri _ (mfun (skew_from_vec (v3_scale a t))))| ]. 
    assert (dst (mfun (skew_from_vec (v3_scale a t))) (fun i j => B2R n * K i j) <= 117 / 100 * d * (14143 / 10000)); [ |lra].
    unfold dst. rewrite (fnorm_ext _ (fun i j => (t - B2R n) * K i j)) by (intros i j Hi Hj; rewrite (SC i j Hi Hj); unfold K; ring). rewrite (fnorm_scal (t - B2R n) K).
    apply Rmult_le_compat; [apply Rabs_pos|apply fnorm_pos|apply Rabs_le; lra|exact SN]. }
  assert (Nz : B2R n <> 0) by lra.
  assert (Vd : forall i j, (i < 3)%nat -> (j < 3)%nat -> mfun (m33_div l n) i j = div (mfun l i j) n).
  { intros i j Hi Hj. clear - Hi Hj. destruct l as ((r00&r01&r02&[])&(r10&r11&r12&[])&(r20&r21&r22&[])&[]). ij i j Hi Hj; reflexivity. }
  set (q := fun i j => mR l i j / B2R n).
  assert (Dq : dst q K <= 269 / 100 * (d / t)).
  { unfold dst, q. rewrite (fnorm_ext _ (fun i j => / B2R n * (mR l i j - B2R n * K i j))) by (intros i j Hi Hj; field; exact Nz). rewrite (fnorm_scal (/ B2R n)), Rabs_pos_eq by (left; apply Rinv_0_lt_compat; lra).
    change (/ B2R n * dst (mR l) (fun i j => B2R n * K i j) <= 269 / 100 * (d / t)). apply Rle_trans with (/ (99 / 100 * t) * (266 / 100 * d)).
    - apply Rmult_le_compat; [left; apply Rinv_0_lt_compat; lra|apply dst_pos|apply Rinv_le_contravar; lra|exact NLK].
    - apply (Rmult_le_reg_r t); [lra| ]. replace (269 / 100 * (d / t) * t) with (269 / 100 * d) by (field; lra). replace (/ (99 / 100 * t) * (266 / 100 * d) * t) with (266 / 99 * d) by (field; lra). lra. }
  assert (dt : d / t <= / 500) by (apply (Rmult_le_reg_r t); [lra| ]; replace (d / t * t) with d by (field; lra); lra).
  assert (ut : uro <= / 60 * (32 / 10 * (d / t))).
  { apply (Rmult_le_reg_r t); [lra| ]. replace (/ 60 * (32 / 10 * (d / t)) * t) with (/ 60 * (32 / 10) * d) by (field; lra). assert (uro * t <= uro * (32 / 10)) by (apply Rmult_le_compat_l; lra). lra. }
  assert (ddt : d <= 32 / 10 * (d / t)) by (apply (Rmult_le_reg_r t); [lra| ]; replace (32 / 10 * (d / t) * t) with (32 / 10 * d) by (field; lra); assert (d * t <= d * (32 / 10)) by (apply Rmult_le_compat_l; lra); lra).
  assert (d0t : 0 < d / t) by (apply Rmult_lt_0_compat; [lra|apply Rinv_0_lt_compat; lra]).
  assert (Nq : fnorm q <= 142 / 100) by (eapply Rle_trans; [apply (fnorm_dst _ K)|lra]).
  assert (G : forall i j, (i < 3)%nat -> (j < 3)%nat -> is_finite (mfun (m33_div l n) i j) = true /\ Rabs (mR (m33_div l n) i j - q i j) <= uro * Rabs (q i j) + eta).
  { intros i j Hi Hj. unfold mR. rewrite (Vd i j Hi Hj). pose proof (fnorm_entry q i j Hi Hj) as B.
    destruct (div_error (mfun l i j) n (Fl i j Hi Hj) Nz ltac:(change (Rabs (q i j) <= 2); lra)) as (Fd & g & h & Lg & Lh & Ev). split; [exact Fd| ]. change (div (mfun l i j) n) with (Bdiv mode_NE (mfun l i j) n). rewrite Ev.
    change (B2R (mfun l i j) / B2R n) with (q i j). replace (q i j * (1 + g) + h - q i j) with (q i j * g + h) by ring. eapply Rle_trans; [apply Rabs_triang| ]. rewrite Rabs_mult. apply Rplus_le_compat; [ |exact Lh].
    rewrite Rmult_comm. apply Rmult_le_compat_r; [apply Rabs_pos|exact Lg]. }
  assert (CS : close3 (279 / 100 * (d / t)) (m33_div l n) (skew_from_vec a)).
  { split; [intros i j Hi Hj; apply (G i j Hi Hj)| ]. rewrite close_dst. fold K. eapply Rle_trans; [apply (dst_tri _ q)| ].
    assert (dst (mR (m33_div l n)) q <= 143 / 100 * uro); [ |lra].
    unfold dst. eapply Rle_trans; [apply (fnorm_mono _ (fun i j => uro * Rabs (q i j) + eta)); intros i j Hi Hj; apply (G i j Hi Hj)| ].
    eapply Rle_trans; [apply (fnorm_plus (fun i j => uro * Rabs (q i j)) (fun _ _ => eta))| ].
    rewrite (fnorm_scal uro (fun i j => Rabs (q i j))), Rabs_pos_eq by lra. rewrite fnorm_abs.
    assert (A3 : fnorm (fun _ _ => eta) <= 3 * eta) by (apply fnorm_all; [lra|intros; rewrite Rabs_pos_eq by lra; lra]).
    assert (uro * fnorm q <= uro * (142 / 100)) by (apply Rmult_le_compat_l; lra). lra. }
  assert (Es' : Rabs (B2R (fsin n) - sin t) <= 125 / 100 * d).
  { replace (B2R (fsin n) - sin t) with ((B2R (fsin n) - sin (B2R n)) + (sin (B2R n) - sin t)) by ring. eapply Rle_trans; [apply Rabs_triang| ]. pose proof (sin_lip (B2R n) t). assert (Rabs (B2R n - t) <= 117 / 100 * d) by (apply Rabs_le; lra). lra. }
  assert (Ec' : Rabs (B2R (fcos n) - cos t) <= 125 / 100 * d).
  { replace (B2R (fcos n) - cos t) with ((B2R (fcos n) - cos (B2R n)) + (cos (B2R n) - cos t)) by ring. eapply Rle_trans; [apply Rabs_triang| ]. pose proof (cos_lip (B2R n) t). assert (Rabs (B2R n - t) <= 117 / 100 * d) by (apply Rabs_le; lra). lra. }
  pose proof (rod_core Hp11 He4 a t (125 / 100 * d) (279 / 100 * (d / t)) (m33_div l n) (fsin n) (fcos n) Ua CS ltac:(lra) ltac:(lra) Fs Fc Es' Ec') as Rr.
  apply (close_weaken _ _ _ _ Rr). replace (33 * d / t) with (33 * (d / t)) by (unfold Rdiv; ring). lra.
Qed.
End F.

(** ** no bound of that kind holds near half turns or near the identity *)
#[local] Instance prec53 : Prec_gt_0 53 := eq_refl.
#[local] Instance emax1024 : Prec_lt_emax 53 1024 := eq_refl.
#[local] Notation f64 := (binary_float 53 1024).
#[local] Notation u53 := (FloatFacts.uro (prec := 53)).

(** every logarithm of a half turn is a vector of length at least [PI] *)
Lemma half_turn_log (a b : V3 R) : v3_dot a a = 1 -> is_mexp 3 (mfun (skew_from_vec b)) (mfun (rodrigues a PI)) -> PI * PI <= v3_dot b b.
Proof.
  intros Ua Hb. pose proof PI_RGT_0 as P0. pose proof (rodrigues_trace a PI Ua) as Tr. rewrite cos_PI in Tr.
  assert (Tr' : mfun (rodrigues a PI) 0 0 + mfun (rodrigues a PI) 1 1 + mfun (rodrigues a PI) 2 2 = -1).
  { transitivity (m33_trace (rodrigues a PI)); [ |lra]. generalize (rodrigues a PI). clear. intros r. destruct r as ((r00&r01&r02&[])&(r10&r11&r12&[])&(r20&r21&r22&[])&[]). reflexivity. }
  set (L := sqrt (v3_dot b b)).
  assert (B0 : 0 <= v3_dot b b). { destruct b as (x&y&z&[]). assert (E : v3_dot [| x; y; z |] [| x; y; z |] = x * x + y * y + z * z) by reflexivity. change (0 <= v3_dot [| x; y; z |] [| x; y; z |]). rewrite E. nra. }
  assert (LL : L * L = v3_dot b b) by (apply sqrt_sqrt, B0). assert (L0 : 0 <= L) by apply sqrt_pos.
  rewrite <- LL. destruct (Req_dec L 0) as [Z|N].
  - exfalso. assert (Zb : v3_dot b b = 0) by (rewrite <- LL, Z; ring).
    assert (Eb : b = v3_zeros). { destruct b as (x&y&z&[]). assert (E : x * x + y * y + z * z = 0) by exact Zb. assert (x = 0) by nra. assert (y = 0) by nra. assert (z = 0) by nra. subst. reflexivity. }
    subst b. assert (Z2 : forall i j, (i < 3)%nat -> (j < 3)%nat -> mfun (skew_from_vec (v3_zeros : V3 R)) i j = 0).
    { intros i j Hi Hj. ij i j Hi Hj; lazy -[Rplus Rmult Ropp Rminus IZR]; ring. }
    assert (Nil : forall i j, (i < 3)%nat -> (j < 3)%nat -> mpow 3 (mfun (skew_from_vec (v3_zeros : V3 R))) 2 i j = 0).
    { intros i j Hi Hj. cbn [mpow sumn add mul zero one R_Num]. rewrite !Z2 by lia. ring. }
    pose proof (is_mexp_unique _ _ _ _ Hb (mexp_nilpotent 3 _ Nil)) as Q.
    pose proof (Q 0 0 ltac:(lia) ltac:(lia))%nat as Q0. pose proof (Q 1 1 ltac:(lia) ltac:(lia))%nat as Q1. pose proof (Q 2 2 ltac:(lia) ltac:(lia))%nat as Q2. cbn [mpow sumn add mul zero one R_Num] in Q0, Q1, Q2. rewrite !Z2 in Q0, Q1, Q2 by lia.
    unfold delta in *. cbn [Nat.eqb one zero R_Num] in Q0, Q1, Q2. lra.
  - assert (Lp : 0 < L) by lra. set (u := v3_scale b (/ L)).
    assert (Uu : v3_dot u u = 1).
    { replace (v3_dot u u) with (v3_dot b b * (/ L * / L)) by (unfold u; destruct b as (x&y&z&[]); lazy -[Rplus Rmult Ropp Rminus Rinv L]; ring). rewrite <- LL. field. lra. }
    assert (Eb : v3_scale u L = b). { unfold u. clear - Lp. clearbody L. destruct b as (x&y&z&[]). lazy [v3_scale acons anil ahd atl fst snd ix0 ix1 ix2 mul R_Num]. repeat f_equal; field; lra. }
    pose proof (mexp_rodrigues (K := f64_consts) u L Uu N) as Hr. rewrite Eb in Hr. pose proof (is_mexp_unique _ _ _ _ Hb Hr) as Q.
    pose proof (rodrigues_trace u L Uu) as Tu.
    assert (Tu' : mfun (rodrigues u L) 0 0 + mfun (rodrigues u L) 1 1 + mfun (rodrigues u L) 2 2 = 1 + 2 * cos L).
    { rewrite <- Tu. generalize (rodrigues u L). clear. intros r. destruct r as ((r00&r01&r02&[])&(r10&r11&r12&[])&(r20&r21&r22&[])&[]). reflexivity. }
    rewrite <- !Q in Tu' by lia. assert (C : cos L = -1) by lra.
    destruct (Rlt_dec L PI) as [Ll|Ll]; [pose proof (cos_gt_m1 L ltac:(lra)); lra| ]. apply Rmult_le_compat; lra.
Qed.

(** the half turn about [(1, 2, 9)], every entry correctly rounded *)
Definition h86 (k : Z) : f64 := div (fofZ k) (fofZ 86).
Definition half_m : M33 f64 := [| [| h86 (-84); h86 4; h86 18 |]; [| h86 4; h86 (-78); h86 36 |]; [| h86 18; h86 36; h86 76 |] |].
Definition half_a : V3 R := [| 1 / sqrt 86; 2 / sqrt 86; 9 / sqrt 86 |].

Lemma h86_val k : (Z.abs k <= 100)%Z -> is_finite (h86 k) = true /\ Rabs (B2R (h86 k) - IZR k / 86) <= 13 / 10 * u53.
Proof.
  intros L. destruct (fofZ_int (prec := 53) (emax := 1024) k ltac:(cbn; lia)) as [Fk Vk]. destruct (fofZ_int (prec := 53) (emax := 1024) 86 ltac:(cbn; lia)) as [F8 V8].
  assert (B : Rabs (IZR k) <= 100) by (rewrite <- abs_IZR; apply IZR_le, L).
  assert (Q : Rabs (B2R (fofZ k : f64) / B2R (fofZ 86 : f64)) <= 117 / 100).
  { rewrite Vk, V8. unfold Rdiv. rewrite Rabs_mult, (Rabs_pos_eq (/ 86)) by lra. lra. }
  assert (N8 : B2R (fofZ 86 : f64) <> 0) by (rewrite V8; lra).
  destruct (div_error (fofZ k : f64) (fofZ 86) Fk N8 ltac:(lra)) as (Fd & g & h & Lg & Lh & Vd). split; [exact Fd| ].
  change (B2R (h86 k)) with (B2R (Bdiv mode_NE (fofZ k : f64) (fofZ 86))). rewrite Vd. rewrite Vk, V8 in Q |- *. replace (IZR k / 86 * (1 + g) + h - IZR k / 86) with (IZR k / 86 * g + h) by ring.
  eapply Rle_trans; [apply Rabs_triang| ]. rewrite Rabs_mult. pose proof (eta_tiny (prec := 53) (emax := 1024) ltac:(lia) ltac:(lia)) as Ht. pose proof (uro_pos (prec := 53)) as P.
  assert (Rabs (IZR k / 86) * Rabs g <= 117 / 100 * u53) by (apply Rmult_le_compat; try apply Rabs_pos; assumption). lra.
Qed.

Lemma half_a_unit : v3_dot half_a half_a = 1.
Proof.
  assert (S : sqrt 86 * sqrt 86 = 86) by (apply sqrt_sqrt; lra). assert (N : sqrt 86 <> 0) by (intros Z; rewrite Z in S; lra).
  change (1 / sqrt 86 * (1 / sqrt 86) + 2 / sqrt 86 * (2 / sqrt 86) + 9 / sqrt 86 * (9 / sqrt 86) = 1).
  replace (1 / sqrt 86 * (1 / sqrt 86) + 2 / sqrt 86 * (2 / sqrt 86) + 9 / sqrt 86 * (9 / sqrt 86)) with (86 / (sqrt 86 * sqrt 86)) by (field; exact N). rewrite S. field.
Qed.

Lemma half_entries : rodrigues half_a PI = [| [| IZR (-84) / 86; 4 / 86; 18 / 86 |]; [| 4 / 86; IZR (-78) / 86; 36 / 86 |]; [| 18 / 86; 36 / 86; 76 / 86 |] |].
Proof.
  assert (S : sqrt 86 * sqrt 86 = 86) by (apply sqrt_sqrt; lra). assert (N : sqrt 86 <> 0) by (intros Z; rewrite Z in S; lra).
  unfold rodrigues. rewrite cos_PI, sin_PI. unfold half_a. 
  assert (Q : forall x y, x / sqrt 86 * (y / sqrt 86) = x * y / 86) by (intros x y; rewrite <- S at 3; field; exact N).
  clear S. revert N Q. generalize (sqrt 86). intros w N Q.
  assert (Q' : forall x y, x * / w * (y * / w) = x * y / 86) by (intros x y; apply Q).
  apply (mfun_ext 3). intros i j Hi Hj. ij i j Hi Hj; lazy -[Rplus Rmult Ropp Rminus IZR Rinv]; rewrite ?Q'; field; exact N.
Qed.

Lemma half_close : close3 (4 * u53) half_m (rodrigues half_a PI).
Proof.
  pose proof (uro_pos (prec := 53)) as P.
  assert (G : forall i j, (i < 3)%nat -> (j < 3)%nat -> exists k, mfun half_m i j = h86 k /\ mfun (rodrigues half_a PI) i j = IZR k / 86 /\ (Z.abs k <= 100)%Z).
  { rewrite half_entries. intros i j Hi Hj. unfold half_m. ij i j Hi Hj; (eexists; split; [reflexivity|split; [reflexivity|lia]]). }
  split.
  - intros i j Hi Hj. destruct (G i j Hi Hj) as (k & -> & _ & L). apply (h86_val k L).
  - rewrite close_dst. eapply Rle_trans; [apply (fnorm_all _ (13 / 10 * u53)); [lra| ]|lra].
    intros i j Hi Hj. destruct (G i j Hi Hj) as (k & Ek & Er & L). unfold mR. rewrite Ek, Er. apply (h86_val k L).
Qed.

Lemma zero_mul (k : f64) b : is_finite k = true -> is_finite (mul (B754_zero b) k : f64) = true /\ B2R (mul (B754_zero b) k : f64) = 0.
Proof. destruct k; intros H; try discriminate H; split; reflexivity. Qed.
Lemma SF_zero (x : f64) b : B2SF x = SpecFloat.S754_zero b -> x = B754_zero b.
Proof. destruct x; intros H; try discriminate H. injection H as ->. reflexivity. Qed.

Lemma half_log_zero (O : FOracle f64) e : acos_ok (O := O) e -> e <= / 10 ^ 9 ->
  forall i j, (i < 3)%nat -> (j < 3)%nat -> is_finite (mfun (matrix_log half_m) i j) = true /\ B2R (mfun (matrix_log half_m) i j) = 0.
Proof.
  intros A Le. pose proof (acos_pos e A) as e0. destruct A as [A1 A2].
  set (x := div (sub (m33_trace half_m) one) (add one one) : f64).
  assert (X : B2SF x = SpecFloat.S754_finite true 9007199254740991 (-53)) by (vm_compute; reflexivity).
  assert (Fx : is_finite x = true) by (destruct x; try discriminate X; reflexivity).
  assert (Vx : B2R x = - 1 + / 9007199254740992) by (rewrite (B2R_of_SF _ _ _ _ X); change (bpow radix2 (-53)) with (/ 9007199254740992); lra).
  assert (L1 : leb one x = false) by (vm_compute; reflexivity). assert (L2 : leb x (neg one) = false) by (vm_compute; reflexivity).
  set (th := facos x). set (k := div (div th (add one one)) (fsin th)).
  assert (E : matrix_log half_m = m33_scale (m33_sub half_m (m33_transpose half_m)) k).
  { unfold matrix_log. fold x. rewrite L1, L2. reflexivity. }
  destruct (A2 x Fx ltac:(rewrite Vx; apply Rabs_le; lra)) as [Ft Vt]. fold th in Ft, Vt.
  pose proof (acos_bound (B2R x)) as Bx. pose proof pi_32 as P3.
  assert (Bt : Rabs (B2R th) <= 4) by (apply Rabs_le_inv in Vt; apply Rabs_le; lra).
  destruct (A1 th Ft Bt) as [[Fs Vs] _]. 
  assert (SA : / 134217728 <= sin (acos (B2R x))).
  { rewrite sin_acos by (rewrite Vx; lra). rewrite <- (sqrt_Rsqr (/ 134217728)) by lra. apply sqrt_le_1_alt. rewrite Vx. unfold Rsqr. lra. }
  assert (S0 : / 10 ^ 9 <= B2R (fsin th)).
  { pose proof (sin_lip (B2R th) (acos (B2R x))) as Sl. assert (H : Rabs (B2R (fsin th) - sin (acos (B2R x))) <= 2 * e).
    { replace (B2R (fsin th) - sin (acos (B2R x))) with ((B2R (fsin th) - sin (B2R th)) + (sin (B2R th) - sin (acos (B2R x)))) by ring. eapply Rle_trans; [apply Rabs_triang| ]. lra. }
    apply Rabs_le_inv in H. lra. }
  destruct (two_val (prec := 53) (emax := 1024) ltac:(lia)) as [T1 T2]. destruct (half_div (prec := 53) (emax := 1024) ltac:(lia) ltac:(lia) th (add one one) Ft T1 T2) as [Fh Vh].
  set (h := div th (add one one)) in *. pose proof (eta_tiny (prec := 53) (emax := 1024) ltac:(lia) ltac:(lia)) as Ht. pose proof uro53 as U. pose proof (uro_pos (prec := 53)) as P.
  assert (Bh : Rabs (B2R h) <= 3) by (apply Rabs_le_inv in Vh, Bt; apply Rabs_le; lra).
  assert (Ns : B2R (fsin th) <> 0) by lra.
  assert (Bq : Rabs (B2R h / B2R (fsin th)) <= 3 * 10 ^ 9).
  { unfold Rdiv. rewrite Rabs_mult. apply Rmult_le_compat; try apply Rabs_pos; [exact Bh| ]. rewrite Rabs_pos_eq by (left; apply Rinv_0_lt_compat; lra).
    rewrite <- (Rinv_inv (10 ^ 9)). apply Rinv_le_contravar; lra. }
  assert (Big : 2 * Rabs (B2R h / B2R (fsin th)) + 2 < bpow radix2 1024).
  { apply Rlt_trans with (bpow radix2 40); [change (bpow radix2 40) with 1099511627776; lra|apply bpow_lt; reflexivity]. }
  destruct (div_big (prec := 53) (emax := 1024) ltac:(lia) ltac:(lia) h (fsin th) Fh Ns Big) as (Fk & _). change (is_finite k = true) in Fk.
  rewrite E. clearbody k. clear - Fk.
  assert (Z : forall i j, (i < 3)%nat -> (j < 3)%nat -> B2SF (mfun (m33_sub half_m (m33_transpose half_m)) i j) = SpecFloat.S754_zero false).
  { intros i j Hi Hj. ij i j Hi Hj; vm_compute; reflexivity. }
  intros i j Hi Hj. specialize (Z i j Hi Hj). apply SF_zero in Z. 
  assert (V : mfun (m33_scale (m33_sub half_m (m33_transpose half_m)) k) i j = mul (mfun (m33_sub half_m (m33_transpose half_m)) i j) k).
  { clear Z. generalize (m33_sub half_m (m33_transpose half_m)). intros m. destruct m as ((r00&r01&r02&[])&(r10&r11&r12&[])&(r20&r21&r22&[])&[]). ij i j Hi Hj; reflexivity. }
  rewrite V, Z. apply zero_mul, Fk.
Qed.

Lemma skew_fro (b : V3 R) : fro2 (mfun (skew_from_vec b)) = 2 * v3_dot b b.
Proof.
  destruct b as (x&y&z&[]). unfold fro2, sq_sum.
  lazy [sumn mfun skew_from_vec List.nth List.map alist ahd atl acons anil fst snd vfun ix0 ix1 ix2 neg zero add mul R_Num R_Signed Nat.div Nat.modulo Nat.divmod Nat.sub v3_dot]. ring.
Qed.

(** any float matrix with all entries zero is at least as far from [skew b] as [b] is long *)
Lemma zero_far (m : M33 f64) (b : V3 R) E : (forall i j, (i < 3)%nat -> (j < 3)%nat -> B2R (mfun m i j) = 0) -> close3 E m (skew_from_vec b) -> 2 * v3_dot b b <= E * E.
Proof.
  intros Z [_ C]. rewrite close_dst in C. pose proof (dst_pos (mR m) (mfun (skew_from_vec b))) as D0. rewrite <- skew_fro.
  assert (E1 : dst (mR m) (mfun (skew_from_vec b)) * dst (mR m) (mfun (skew_from_vec b)) = fro2 (mfun (skew_from_vec b))).
  { unfold dst. rewrite fnorm_fro. unfold fro2, sq_sum, mR. lazy [sumn add mul zero R_Num]. rewrite !Z by lia. ring. }
  rewrite <- E1. apply Rmult_le_compat; assumption.
Qed.

Lemma c99_half_turn_refuted : exists (m : M33 f64) (a : V3 R), v3_dot a a = 1 /\ close3 (4 * u53) m (rodrigues a PI) /\
  forall (O : FOracle f64) e, acos_ok (O := O) e -> e <= / 10 ^ 9 ->
  (forall i j, (i < 3)%nat -> (j < 3)%nat -> B2R (mfun (matrix_log m) i j) = 0) /\
  forall b : V3 R, is_mexp 3 (mfun (skew_from_vec b)) (mfun (rodrigues a PI)) -> ~ close3 2 (matrix_log m) (skew_from_vec b).
Proof.
  exists half_m, half_a. split; [exact half_a_unit|split; [exact half_close| ]]. intros O e A Le. pose proof (half_log_zero O e A Le) as Z.
  split; [intros i j Hi Hj; apply (Z i j Hi Hj)| ]. intros b Hb C.
  pose proof (zero_far _ b 2 (fun i j Hi Hj => proj2 (Z i j Hi Hj)) C) as Q. pose proof (half_turn_log half_a b half_a_unit Hb) as L.
  pose proof PI2_1 as P. assert (2 * 2 <= PI * PI) by (apply Rmult_le_compat; lra). lra.
Qed.

(** a rotation about the third axis by the angle 2^-27 *)
Definition small_m : M33 f64 := let h := binary_normalize 53 1024 prec53 emax1024 mode_NE 1 (-27) false in
  [| [| one; neg h; zero |]; [| h; one; zero |]; [| zero; zero; one |] |].

Lemma small_trig t : 0 <= t -> 0 <= 1 - cos t <= t * t / 2 /\ Rabs (sin t - t) <= t * (t * t / 2).
Proof.
  intros T. assert (C : forall c, 0 <= 1 - cos c <= c * c / 2).
  { intros c. pose proof (COS_bound c). split; [lra| ]. replace c with (2 * (c / 2)) at 1 by field. rewrite cos_2a_sin. pose proof (sin_abs (c / 2)) as S.
    assert (sin (c / 2) * sin (c / 2) <= (c / 2) * (c / 2)) by (apply Rsqr_le_abs_1 in S; exact S). lra. }
  split; [apply C| ]. destruct (Req_dec t 0) as [->|N]; [rewrite sin_0, Rabs_pos_eq; lra| ].
  destruct (MVT_cor2 sin cos 0 t ltac:(lra)) as (c & E & Hc); [intros; apply derivable_pt_lim_sin| ]. rewrite sin_0 in E.
  replace (sin t - t) with (- (t * (1 - cos c))) by lra. rewrite Rabs_Ropp, Rabs_pos_eq by (apply Rmult_le_pos; [lra|apply C]).
  apply Rmult_le_compat_l; [lra| ]. pose proof (C c). assert (c * c <= t * t) by (apply Rmult_le_compat; lra). lra.
Qed.

Lemma c99_small_refuted : exists (m : M33 f64) (a : V3 R) t, v3_dot a a = 1 /\ 0 < t < PI /\ close3 u53 m (rodrigues a t) /\
  forall O : FOracle f64, matrix_log m = m33_zeros /\ ~ close3 (10 ^ 7 * u53) (matrix_log m) (skew_from_vec (v3_scale a t)).
Proof.
  set (t := / 134217728). exists small_m, ez, t. assert (T : t = / 134217728) by reflexivity. clearbody t. pose proof PI2_1 as P1.
  assert (U : u53 = / 9007199254740992) by (unfold FloatFacts.uro; change (bpow radix2 (1 - 53)) with (/ 4503599627370496); lra).
  split; [lazy -[Rplus Rmult Ropp Rminus IZR]; ring|split; [rewrite T; lra|split]].
  - set (h := binary_normalize 53 1024 prec53 emax1024 mode_NE 1 (-27) false : f64).
    assert (X : B2SF h = SpecFloat.S754_finite false 4503599627370496 (-79)) by (vm_compute; reflexivity).
    assert (Fh : is_finite h = true) by (destruct h; try discriminate X; reflexivity).
    assert (Vh : B2R h = t) by (rewrite (B2R_of_SF _ _ _ _ X); change (bpow radix2 (-79)) with (/ 604462909807314587353088); lra).
    change small_m with ([| [| one; neg h; zero |]; [| h; one; zero |]; [| zero; zero; one |] |] : M33 f64). clearbody h.
    destruct (small_trig t ltac:(rewrite T; lra)) as [C S].
    assert (C' : Rabs (1 - cos t) <= / 3 * u53) by (rewrite Rabs_pos_eq by lra; rewrite U; eapply Rle_trans; [apply C|rewrite T; lra]).
    assert (S' : Rabs (t - sin t) <= / 3 * u53) by (rewrite Rabs_minus_sym, U; eapply Rle_trans; [exact S|rewrite T; lra]).
    assert (S2 : Rabs (- t - - sin t) <= / 3 * u53) by (replace (- t - - sin t) with (- (t - sin t)) by ring; rewrite Rabs_Ropp; exact S').
    assert (Z' : Rabs (0 - 0) <= / 3 * u53) by (replace (0 - 0) with 0 by ring; rewrite Rabs_R0, U; lra).
    assert (O' : Rabs (1 - 1) <= / 3 * u53) by (replace (1 - 1) with 0 by ring; rewrite Rabs_R0, U; lra).
    destruct (one_val (prec := 53) (emax := 1024)) as [F1 V1].
    assert (NV : is_finite (neg h : f64) = true /\ B2R (neg h : f64) = - t) by (change (neg h : f64) with (Bopp h); rewrite is_finite_Bopp, B2R_Bopp, Vh; auto). destruct NV as [Fn Vn].
    assert (ER : rodrigues ez t = [| [| cos t; - sin t; 0 |]; [| sin t; cos t; 0 |]; [| 0; 0; 1 |] |]).
    { apply (mfun_ext 3). intros i j Hi Hj. unfold rodrigues, ez. generalize (cos t) (sin t). intros c s. ij i j Hi Hj; lazy -[Rplus Rmult Ropp Rminus IZR]; ring. }
    rewrite ER. split.
    + intros i j Hi Hj. ij i j Hi Hj; first [exact F1|exact Fn|exact Fh|reflexivity].
    + rewrite close_dst. eapply Rle_trans; [apply (fnorm_all _ (/ 3 * u53)); [rewrite U; lra| ]|lra].
      intros i j Hi Hj. unfold mR. ij i j Hi Hj;
      match goal with |- Rabs (B2R ?a - ?b) <= _ => let a' := eval lazy [mfun List.nth List.map alist ahd atl acons anil fst snd vfun ix0 ix1 ix2] in a in change a with a'; let b' := eval lazy [mfun List.nth List.map alist ahd atl acons anil fst snd vfun ix0 ix1 ix2] in b in change b with b' end;
      rewrite ?V1, ?Vn, ?Vh; assumption.
  - intros O. assert (E : matrix_log small_m = m33_zeros).
    { unfold matrix_log. replace (leb one (div (sub (m33_trace small_m) one) (add one one) : f64)) with true by (vm_compute; reflexivity). reflexivity. }
    split; [exact E| ]. rewrite E. intros C.
    assert (Z : forall i j, (i < 3)%nat -> (j < 3)%nat -> B2R (mfun (m33_zeros : M33 f64) i j) = 0) by (intros i j Hi Hj; ij i j Hi Hj; reflexivity).
    pose proof (zero_far _ _ _ Z C) as Q. replace (v3_dot (v3_scale ez t) (v3_scale ez t)) with (t * t) in Q by (lazy -[Rplus Rmult Ropp Rminus IZR]; ring).
    rewrite U, T in Q. lra.
Qed.

(** *** correctly rounded functions meet the hypotheses *)
Lemma crO_acos : acos_ok (O := crO) (2 * u53).
Proof.
  pose proof (uro_pos (prec := 53)) as P. split.
  - intros x _ _. destruct (crO_trig x) as [[A B] [C D]]. split; split; [exact A|eapply Rle_trans; [exact B|lra]|exact C|eapply Rle_trans; [exact D|lra]].
  - intros x Fx Lx. pose proof (acos_bound (B2R x)) as B. pose proof pi_32 as P3. change (facos x) with (near (acos (B2R x))).
    destruct (near_ok4 (acos (B2R x)) ltac:(apply Rabs_lt; lra)) as (F & Er & _). split; [exact F|exact Er].
Qed.

#[local] Existing Instance crO.
(** one radian about the third axis: the logarithm and back *)
Example C99_case_regular : let m := rotz (fofZ 1 : f64) in close3 (/ 10 ^ 12) (matrix_log m) (skew_from_vec (v3_scale ez 1)) /\
  exists m', matrix_exponential (matrix_log m) = Ok m' /\ close3 (/ 10 ^ 11) m' (rodrigues ez 1).
Proof.
  intros m. pose proof uro53 as U. pose proof (uro_pos (prec := 53)) as P. 
  assert (F1 : is_finite (fofZ 1 : f64) = true /\ B2R (fofZ 1 : f64) = 1) by apply (fofZ_int (prec := 53) (emax := 1024) 1 ltac:(cbn; lia)).
  destruct (c96_elementary _ (fofZ 1) (crO_trig (fofZ 1))) as (_ & _ & C). rewrite (proj2 F1) in C. fold m in C.
  pose proof PI2_1 as P2.
  assert (S : 6 / 10 <= sin 1 * sin 1).
  { pose proof (sin2_cos2 1) as I. unfold Rsqr in I. assert (C1 : 0 < cos 1) by (apply cos_gt_0; lra).
    destruct (small_trig (1 / 2) ltac:(lra)) as [K _]. assert (C2 : cos 1 = 1 - 2 * sin (1 / 2) * sin (1 / 2)) by (rewrite <- cos_2a_sin; f_equal; field).
    destruct (MVT_cor2 sin cos 0 (1 / 2) ltac:(lra)) as (c & Ec & Hc); [intros; apply derivable_pt_lim_sin| ]. rewrite sin_0 in Ec.
    assert (Cc : 7 / 8 <= cos c). { destruct (small_trig c ltac:(lra)) as [Kc _]. assert (c * c <= 1 / 2 * (1 / 2)) by (apply Rmult_le_compat; lra). lra. }
    assert (S1 : 7 / 16 <= sin (1 / 2)) by lra. assert (7 / 16 * (7 / 16) <= sin (1 / 2) * sin (1 / 2)) by (apply Rmult_le_compat; lra).
    assert (C3 : cos 1 <= 62 / 100) by lra. assert (cos 1 * cos 1 <= 62 / 100 * (62 / 100)) by (apply Rmult_le_compat; lra). lra. }
  set (d := (16 * (2 * (11 / 10 * u53)) + 13 * (2 * u53) + 60 * u53) / (sin 1 * sin 1)).
  assert (Ld : d <= 210 * u53).
  { unfold d. apply (Rmult_le_reg_r (sin 1 * sin 1)); [lra| ]. unfold Rdiv. rewrite Rmult_assoc, Rinv_l, Rmult_1_r by lra. assert (210 * u53 * (6 / 10) <= 210 * u53 * (sin 1 * sin 1)) by (apply Rmult_le_compat_l; lra). lra. }
  assert (Un : v3_dot ez ez = 1) by (lazy -[Rplus Rmult Ropp Rminus IZR]; ring).
  split.
  - pose proof (c99_regular_partial (prec := 53) (emax := 1024) ltac:(lia) ltac:(lia) _ _ m ez 1 Un ltac:(lra) C crO_acos ltac:(lra)) as G. apply (close_weaken _ _ _ _ G). fold d. lra.
  - destruct (c99_exp_log_partial (prec := 53) (emax := 1024) ltac:(lia) ltac:(lia) _ _ m ez 1 Un ltac:(lra) C crO_acos ltac:(lra) ltac:(fold d; lra)) as (m' & E & G).
    exists m'. split; [exact E| ]. apply (close_weaken _ _ _ _ G). fold d. unfold Rdiv. rewrite Rinv_1. lra.
Qed.

(** the correctly rounded functions lose the half turn *)
Example C99_case_half_turn : exists (m : M33 f64) (a : V3 R), v3_dot a a = 1 /\ close3 (4 * u53) m (rodrigues a PI) /\ B2R (mfun (matrix_log m) 1 0) = 0 /\
  ~ close3 2 (matrix_log m) (skew_from_vec (v3_scale a PI)).
Proof.
  destruct c99_half_turn_refuted as (m & a & Ua & C & H). exists m, a. split; [exact Ua|split; [exact C| ]]. pose proof uro53 as U.
  destruct (H crO _ crO_acos ltac:(lra)) as [Z B]. split; [apply Z; lia| ]. apply B. apply (mexp_rodrigues (K := f64_consts)); [exact Ua| ]. pose proof PI_RGT_0. lra.
Qed.
