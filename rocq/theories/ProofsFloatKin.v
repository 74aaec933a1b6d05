(** * ProofsFloatKin: planar motions, screw axes and quaternion derivatives on floats (C107) *)

From Coq Require Import List Arith ZArith Reals Bool Lra Lia.
From Flocq Require Import Core Relative Sterbenz Mult_error IEEE754.BinarySingleNaN.
From Verif Require Import Base Scalar Vec Mat2 Mat3 Mat4 Mat5 Mat6 Slices MatLoops MatOps Quat Transf DualQuat RingDet Spec LoopFacts Entries InstZ InstR RFacts TrigFacts LUFacts QRFacts ProofsRing ProofsQuat ProofsRot ProofsRigid ProofsEuler ProofsSlerp ProofsQuatR InstF FloatFacts ProofsFloat ProofsFloat2 ProofsFloatErr ProofsFloatInv ProofsFloatNorm ProofsFloatRot ProofsFloatDrift ProofsFloatRigid ProofsFloatDQ ProofsFloatFromRot ProofsFloatRotH ProofsFloatQR ExpSeries ProofsExp ProofsFloatAngles ProofsFloatChain.
Local Open Scope R_scope.

Section F.
Context {prec emax : Z} {Hp : Prec_gt_0 prec} {He : Prec_lt_emax prec emax} {O : FOracle (binary_float prec emax)}.
Notation fl := (binary_float prec emax).
Notation uro := (uro (prec := prec)).
Notation eta := (eta (prec := prec) (emax := emax)).
Hypothesis Hp11 : (11 <= prec)%Z.
Hypothesis He4 : (4 * prec <= emax)%Z.

(** ** the derivative of a turning quaternion *)
Lemma q_mul_free (a b : Quaternion fl) : (forall k, (k < 4)%nat -> is_finite (qcomp k (q_mul a b)) = true) ->
  nrm 4 (fun k => qR (q_mul a b) k - hp (qR a) (qR b) k) <= 803 / 100 * uro * (nrm 4 (qR a) * nrm 4 (qR b)) + 9 * eta.
Proof.
  intros FF. pose proof (uro_small Hp11) as U. pose proof (uro_pos (prec := prec)) as P. assert (E0 : 0 <= eta) by apply eta_pos.
  pose proof (pow_lin Hp11 4 (401 / 100) ltac:(cbn; lra) ltac:(lra)) as P4. pose proof (pow_mono 0 4 ltac:(lia) : _ <= _ <= (1 + uro) ^ 4) as [_ P4']. rewrite pow_O in P4'.
  set (m := nrm 4 (qR a) * nrm 4 (qR b)) in *. assert (M : 0 <= m) by (apply Rmult_le_pos; apply nrm_pos).
  assert (0 <= uro * m) by (apply Rmult_le_pos; lra).
  eapply Rle_trans; [apply (nrm_bound 4 _ (401 / 100 * uro * m + 44 / 10 * eta))| ].
  - lra.
  - intros k Hk. pose proof (c87_q_mul_error a b k Hk (FF k Hk)) as E. cbv zeta in E. fold (hp (qR a) (qR b) k) in E. fold (qR (q_mul a b) k) in E. fold (qR a) in E. fold (qR b) in E.
    eapply Rle_trans; [exact E| ]. pose proof (hmag_le (qR a) (qR b) k Hk) as Hm. fold m in Hm.
    set (h := hmag (qR a) (qR b) k) in *. assert (0 <= h) by (unfold h, hmag; destruct k as [ |[ |[ |k]]]; repeat apply Rplus_le_le_0_compat; apply Rabs_pos).
    set (p := (1 + uro) ^ 4) in *. clearbody p h. apply Rplus_le_compat.
    + apply Rmult_le_compat; lra.
    + apply Rle_trans with (11 / 10 * (4 * eta)); [apply Rmult_le_compat_r; lra|lra].
  - replace (INR 4) with (2 * 2) by (cbn; lra). rewrite sqrt_square by lra. lra.
Qed.

Lemma c107_derivative : forall (a : Quaternion fl) (w : V3 fl), (forall k, (k < 3)%nat -> is_finite (vfun w k) = true) ->
  (forall k, (k < 4)%nat -> is_finite (qcomp k (q_derivative a w)) = true) ->
  let A := fun k => B2R (qcomp k a) in let W := fun k => B2R (vfun w k) in let D := fun k => B2R (qcomp k (q_derivative a w)) in
  let K := (403 / 100 * uro * nrm 3 W + 175 / 100 * eta) * nrm 4 A + 9 * eta in
  nrm 4 (fun k => D k - / 2 * comp4 k (hamilton (h4 (emb W)) (h4 A))) <= K /\ Rabs (sumn 4 (fun k => A k * D k)) <= nrm 4 A * K.
Proof.
  intros a w Fw FD A W D K. pose proof (uro_small Hp11) as U. pose proof (uro_pos (prec := prec)) as P. assert (E0 : 0 <= eta) by apply eta_pos.
  set (h := q_scale (q_new_imag w) (div one (add one one))).
  assert (ED : q_derivative a w = q_mul h a) by reflexivity.
  assert (H0 : qR h 0%nat = 0).
  { unfold qR, h. change (B2R (mul (zero : fl) (div one (add one one))) = 0). destruct (half_val (emax := emax) Hp11 He4) as [F2 V2].
    destruct (div one (add one one) : fl); try discriminate F2; reflexivity. }
  assert (HW : forall k, (k < 3)%nat -> Rabs (qR h (Datatypes.S k) - / 2 * W k) <= eta).
  { intros k Hk. destruct (hlf_val Hp11 He4 _ (Fw k Hk)) as (_ & Q & _). destruct k as [ |[ |[ |k]]]; [exact Q..|lia]. }
  set (dl := fun k => qR h k - / 2 * emb W k).
  assert (ND : nrm 4 dl <= 17321 / 10000 * eta).
  { rewrite (nrm_ext 4 dl (emb (fun k => qR h (Datatypes.S k) - / 2 * W k))).
    - rewrite nrm_emb. eapply Rle_trans; [apply (nrm_bound 3 _ eta E0 HW)|apply Rmult_le_compat_r; [exact E0|apply sqrt3]].
    - intros k Hk. unfold dl. destruct k as [ |k]; [cbn [emb]; rewrite H0; ring|reflexivity]. }
  assert (NH : nrm 4 (qR h) <= / 2 * nrm 3 W + 17321 / 10000 * eta).
  { rewrite (nrm_ext 4 (qR h) (fun k => / 2 * emb W k + dl k)) by (intros; unfold dl; ring). eapply Rle_trans; [apply nrm_plus| ].
    rewrite (nrm_scal 4 (/ 2) (emb W)), nrm_emb, Rabs_pos_eq by lra. lra. }
  assert (G : nrm 4 (fun k => D k - / 2 * comp4 k (hamilton (h4 (emb W)) (h4 A))) <= K).
  { rewrite (nrm_ext 4 _ (fun k => (qR (q_mul h a) k - hp (qR h) (qR a) k) + hp dl (qR a) k)).
    - eapply Rle_trans; [apply (nrm_plus 4 (fun k => qR (q_mul h a) k - hp (qR h) (qR a) k))| ].
      pose proof (q_mul_free h a FD) as Q. rewrite hp_norm. change (nrm 4 A) with (nrm 4 (qR a)) in *. unfold K. change (nrm 4 A) with (nrm 4 (qR a)).
      pose proof (nrm_pos 4 (qR a)) as a0. pose proof (nrm_pos 3 W) as w0.
      assert (Q1 : nrm 4 (qR h) * nrm 4 (qR a) <= (/ 2 * nrm 3 W + 17321 / 10000 * eta) * nrm 4 (qR a)) by (apply Rmult_le_compat_r; assumption).
      assert (Q2 : 803 / 100 * uro * (nrm 4 (qR h) * nrm 4 (qR a)) <= 803 / 100 * uro * ((/ 2 * nrm 3 W + 17321 / 10000 * eta) * nrm 4 (qR a))) by (apply Rmult_le_compat_l; lra).
      assert (Q3 : nrm 4 dl * nrm 4 (qR a) <= 17321 / 10000 * eta * nrm 4 (qR a)) by (apply Rmult_le_compat_r; assumption).
      assert (Q4 : 803 / 100 * uro * (17321 / 10000 * eta) <= / 100 * eta) by (assert (uro * eta <= / 2048 * eta) by (apply Rmult_le_compat_r; lra); lra).
      assert (Q5 : 803 / 100 * uro * (17321 / 10000 * eta) * nrm 4 (qR a) <= / 100 * eta * nrm 4 (qR a)) by (apply Rmult_le_compat_r; assumption).
      assert (0 <= uro * nrm 3 W * nrm 4 (qR a)) by (apply Rmult_le_pos; [apply Rmult_le_pos; lra|lra]).
      assert (0 <= eta * nrm 4 (qR a)) by (apply Rmult_le_pos; lra). lra.
    - intros k Hk. unfold D. rewrite ED. fold (qR (q_mul h a) k). change A with (qR a). unfold dl.
      rewrite (hp_sub (qR h) (fun k => / 2 * emb W k) (qR a) k).
      replace (hp (fun k => / 2 * emb W k) (qR a) k) with (/ 2 * comp4 k (hamilton (h4 (emb W)) (h4 (qR a)))); [ring| ].
      unfold hp. destruct k as [ |[ |[ |k]]]; lazy [add sub mul zero R_Num hamilton h4 comp4]; ring. }
  split; [exact G| ].
  replace (sumn 4 (fun k => A k * D k)) with (sumn 4 (fun k => A k * (D k - / 2 * comp4 k (hamilton (h4 (emb W)) (h4 A))))).
  - eapply Rle_trans; [apply nrm_cs|apply Rmult_le_compat_l; [apply nrm_pos|exact G]].
  - generalize D. intros f. cbn [sumn]. lazy [add sub mul zero R_Num hamilton h4 comp4 emb]. ring.
Qed.

(** ** the axis of a screw *)
Ltac uerr_go := lazymatch goal with
  | |- uerr (add _ _) _ _ => eapply uerr_add; uerr_go
  | |- uerr (sub _ _) _ _ => eapply uerr_sub; uerr_go
  | |- uerr (mul _ _) _ _ => eapply uerr_mul; uerr_go
  | |- _ => eapply uerr_leaf
  end.
Lemma c107_screw_to_axis : forall (p s : V3 fl) (h : fl), let r := screw_to_axis p s h in
  (forall i, (i < 3)%nat -> vfun r i = vfun s i) /\
  forall i, (i < 3)%nat -> is_finite (vfun r (3 + i)) = true ->
  let P := fun i => B2R (vfun p i) in let S := fun i => B2R (vfun s i) in
  let j := Nat.modulo (i + 1) 3 in let k := Nat.modulo (i + 2) 3 in
  Rabs (B2R (vfun r (3 + i)) - (P j * S k - P k * S j + B2R h * S i))
  <= ((1 + uro) ^ 3 - 1) * (Rabs (P j * S k) + Rabs (P k * S j) + Rabs (B2R h * S i)) + (1 + uro) ^ 3 * (3 * eta).
Proof.
  intros p s h r. destruct p as (x1&x2&x3&[]), s as (y1&y2&y3&[]). split.
  - intros i Hi. destruct i as [ |[ |[ |i]]]; [reflexivity..|lia].
  - intros i Hi F P S j k. subst P S j k r.
    destruct i as [ |[ |[ |i]]]; [ | | |lia]; lazy [screw_to_axis v3_add v3_scale v3_cross vfun List.nth alist ix0 ix1 ix2 ix3 ix4 ix5 ahd atl acons anil fst snd Nat.add] in F |- *;
    (eapply uerr_done; [uerr_go|reflexivity|..]);
    [ | | | |exact F| | | | |exact F| | | | |exact F];
    try (lazy; lia); lazy [Nat.modulo Nat.divmod Nat.add Nat.sub fst snd add sub mul one R_Num vfun List.nth alist ahd atl]; rewrite ?Rabs_mult; try ring; apply Req_le; ring.
Qed.

(** ** motions of the plane *)
Lemma trig_le e (a : fl) : trig_ok e a -> Rabs (B2R (fsin a)) <= 1 + e /\ Rabs (B2R (fcos a)) <= 1 + e.
Proof.
  intros [[_ S] [_ C]]. pose proof (SIN_bound (B2R a)) as S1. pose proof (COS_bound (B2R a)) as C1. apply Rabs_le_inv in S. apply Rabs_le_inv in C.
  split; apply Rabs_le; lra.
Qed.
(** a float sum of products against the exact one *)
Lemma planar_step e c s c' s' x y t z u v k : 0 <= e -> 0 <= u -> 0 <= v -> Rabs (c - c') <= e -> Rabs (s - s') <= e -> Rabs c <= 1 + e -> Rabs s <= 1 + e ->
  u <= k -> Rabs (z - (c * x + s * y + t)) <= u * (Rabs (c * x) + Rabs (s * y) + Rabs t) + v ->
  Rabs (z - (c' * x + s' * y + t)) <= e * (Rabs x + Rabs y) + k * ((1 + e) * (Rabs x + Rabs y) + Rabs t) + v.
Proof.
  intros E0 U V C S C1 S1 UK H. pose proof (Rabs_pos x) as X. pose proof (Rabs_pos y) as Y. pose proof (Rabs_pos t) as T. rewrite !Rabs_mult in H.
  assert (A1 : Rabs c * Rabs x <= (1 + e) * Rabs x) by (apply Rmult_le_compat_r; assumption).
  assert (A2 : Rabs s * Rabs y <= (1 + e) * Rabs y) by (apply Rmult_le_compat_r; assumption).
  assert (A3 : u * (Rabs c * Rabs x + Rabs s * Rabs y + Rabs t) <= k * ((1 + e) * (Rabs x + Rabs y) + Rabs t)).
  { apply Rmult_le_compat; [exact U| |exact UK|lra]. pose proof (Rmult_le_pos _ _ (Rabs_pos c) X). pose proof (Rmult_le_pos _ _ (Rabs_pos s) Y). lra. }
  replace (z - (c' * x + s' * y + t)) with ((z - (c * x + s * y + t)) + ((c - c') * x + (s - s') * y)) by ring.
  eapply Rle_trans; [apply Rabs_triang| ]. pose proof (Rabs_triang ((c - c') * x) ((s - s') * y)) as Q. rewrite !Rabs_mult in Q.
  assert (A4 : Rabs (c - c') * Rabs x <= e * Rabs x) by (apply Rmult_le_compat_r; assumption).
  assert (A5 : Rabs (s - s') * Rabs y <= e * Rabs y) by (apply Rmult_le_compat_r; assumption). lra.
Qed.

(** a finite number of magnitude at most 2^(emax-10) *)
Definition fits (x : fl) : Prop := is_finite x = true /\ Rabs (B2R x) <= bpow radix2 (emax - 10).
Ltac ufin_go := lazymatch goal with
  | |- ufin (add _ _) _ => eapply ufin_add; [exact Hp11|exact He4|ufin_go..]
  | |- ufin (mul _ _) _ => eapply ufin_mul; [exact Hp11|exact He4|ufin_go..]
  | _ => eassumption end.

Lemma rot2_fin e (a : fl) (p : V2 fl) : trig_ok e a -> e <= 1 -> fits (vfun p 0) -> fits (vfun p 1) -> forall i, (i < 2)%nat -> is_finite (vfun (m22_mul_v (rot2 a) p) i) = true.
Proof.
  intros T L [F0 B0] [F1 B1] i Hi. destruct (big_b Hp11 He4) as (b & Eb & b1 & BE). rewrite <- Eb in B0, B1. destruct (trig_le e a T) as [S1 C1]. destruct T as [[Fs _] [Fc _]].
  assert (S0 : ufin (fsin a) (2, 0%nat)) by (apply ufin_leaf; [exact Fs|lra|lra]). assert (C0 : ufin (fcos a) (2, 0%nat)) by (apply ufin_leaf; [exact Fc|lra|lra]). pose proof (ufin_opp _ _ S0) as N0.
  assert (X0 : ufin (vfun p 0) (b, 0%nat)) by (apply ufin_leaf; assumption). assert (X1 : ufin (vfun p 1) (b, 0%nat)) by (apply ufin_leaf; assumption).
  revert S0 C0 N0. unfold rot2, sin_cos. generalize (fsin a) (fcos a). intros s c. clear - b1 BE X0 X1 Hi Hp11 He4. revert X0 X1. destruct p as (x0&x1&[]). intros X0 X1 S0 C0 N0.
  lazy [vfun List.nth alist] in X0, X1.
  destruct i as [ |[ |i]]; [ | |lia]; lazy [m22_mul_v vfun mfun List.nth List.map alist ix0 ix1 ix2 ix3 ahd atl acons anil fst snd];
  (eapply (ufin_done Hp11 _ _ _ _ (64 * b) 100); [ufin_go|reflexivity|lra|cbn; lra|lra|lra]).
Qed.
Lemma ksi_fin e (a dx dy px py : fl) : trig_ok e a -> e <= 1 -> fits dx -> fits dy -> fits px -> fits py ->
  (forall i, (i < 3)%nat -> is_finite (vfun (m33_mul_v (ksi a dx dy) [| px; py; one |]) i) = true) /\ B2R (vfun (m33_mul_v (ksi a dx dy) [| px; py; one |]) 2) = 1.
Proof.
  intros T L [Fdx Bdx] [Fdy Bdy] [F0 B0] [F1 B1]. destruct (big_b Hp11 He4) as (b & Eb & b1 & BE). rewrite <- Eb in B0, B1, Bdx, Bdy. destruct (trig_le e a T) as [S1 C1]. destruct T as [[Fs _] [Fc _]].
  assert (S0 : ufin (fsin a) (2, 0%nat)) by (apply ufin_leaf; [exact Fs|lra|lra]). assert (C0 : ufin (fcos a) (2, 0%nat)) by (apply ufin_leaf; [exact Fc|lra|lra]). pose proof (ufin_opp _ _ S0) as N0.
  assert (X0 : ufin px (b, 0%nat)) by (apply ufin_leaf; assumption). assert (X1 : ufin py (b, 0%nat)) by (apply ufin_leaf; assumption).
  assert (D0 : ufin dx (b, 0%nat)) by (apply ufin_leaf; assumption). assert (D1 : ufin dy (b, 0%nat)) by (apply ufin_leaf; assumption).
  assert (O1 : ufin (one : fl) (1, 0%nat)) by apply ufin_one. assert (Z1 : ufin (zero : fl) (1, 0%nat)) by (apply ufin_leaf; [reflexivity|cbn; rewrite Rabs_R0; lra|lra]).
  split.
  - intros i Hi. unfold ksi, sin_cos. generalize dependent (fsin a). generalize dependent (fcos a). intros c Fc C1 C0 s Fs S1 S0 N0.
    destruct i as [ |[ |[ |i]]]; [ | | |lia]; lazy [m33_mul_v vfun mfun List.nth List.map alist ix0 ix1 ix2 ix3 ahd atl acons anil fst snd];
    (eapply (ufin_done Hp11 _ _ _ _ (64 * b) 100); [ufin_go|reflexivity|lra|cbn; lra|lra|lra]).
  - change (vfun (m33_mul_v (ksi a dx dy) [| px; py; one |]) 2) with (add (add (mul zero px) (mul zero py)) (mul one one) : fl).
    assert (Z : forall x : fl, is_finite x = true -> exists s, mul zero x = B754_zero s :> fl) by (intros [sx|sx| |sx m ex Bd] Fx; try discriminate Fx; eexists; reflexivity).
    destruct (Z px F0) as [s0 ->], (Z py F1) as [s1 ->].
    assert (I1 : intval (one : fl) 1) by (split; [apply is_finite_Bone|apply Bone_correct]).
    assert (Q : (2 <= 2 ^ prec)%Z) by (change 2%Z with (2 ^ 1)%Z at 1; apply Z.pow_le_mono_r; lia).
    destruct (intval_mult _ _ _ _ I1 I1 ltac:(cbn; lia)) as [Fm Vm]. change (Bmult mode_NE (one : fl) one) with (mul one one : fl) in Fm, Vm.
    assert (ZZ : exists s, add (B754_zero s0) (B754_zero s1) = B754_zero s :> fl) by (destruct s0, s1; eexists; reflexivity). destruct ZZ as [s ->].
    destruct (mul one one : fl) as [sx|sx| |sx m ex Bd]; try discriminate Fm; [cbn in Vm; lra|exact Vm].
Qed.

Lemma c107_rot2 : forall e (a : fl) (p : V2 fl), trig_ok e a -> e <= 1 -> fits (vfun p 0) -> fits (vfun p 1) -> let r := m22_mul_v (rot2 a) p in
  let x := B2R (vfun p 0) in let y := B2R (vfun p 1) in let t := B2R a in let K := (e + 201 / 100 * uro * (1 + e)) * (Rabs x + Rabs y) + 21 / 10 * eta in
  (forall i, (i < 2)%nat -> is_finite (vfun r i) = true) /\ Rabs (B2R (vfun r 0) - (cos t * x - sin t * y)) <= K /\ Rabs (B2R (vfun r 1) - (sin t * x + cos t * y)) <= K.
Proof.
  intros e a p T Le Fx Fy r x y t K. pose proof (rot2_fin e a p T Le Fx Fy) as F. fold r in F. split; [exact F| ].
  pose proof (uro_small Hp11) as U. pose proof (uro_pos (prec := prec)) as P. assert (E0 : 0 <= eta) by apply eta_pos.
  pose proof (trig_pos e a T) as e0. destruct (trig_le e a T) as [S1 C1]. destruct T as [[_ Ts] [_ Tc]]. fold t in Ts, Tc.
  assert (Ts' : Rabs (- B2R (fsin a) - - sin t) <= e) by (replace (- B2R (fsin a) - - sin t) with (- (B2R (fsin a) - sin t)) by ring; rewrite Rabs_Ropp; exact Ts).
  assert (S1' : Rabs (- B2R (fsin a)) <= 1 + e) by (rewrite Rabs_Ropp; exact S1).
  pose proof (pow_lin Hp11 2 (201 / 100) ltac:(cbn; lra) ltac:(lra)) as P2. pose proof (pow_mono 0 2 ltac:(lia) : _ <= _ <= (1 + uro) ^ 2) as [_ P2']. rewrite pow_O in P2'.
  assert (V : INR 2 * (1 + uro) ^ 2 * eta <= 21 / 10 * eta) by (apply Rmult_le_compat_r; [exact E0|cbn [INR]; lra]).
  assert (V0 : 0 <= INR 2 * (1 + uro) ^ 2 * eta) by (apply Rmult_le_pos; [apply Rmult_le_pos; [apply pos_INR|lra]|exact E0]).
  pose proof (c50_mul_v_error D2 (rot2 a) p 0 ltac:(cbn; lia) (F 0%nat ltac:(lia))) as G0. pose proof (c50_mul_v_error D2 (rot2 a) p 1 ltac:(cbn; lia) (F 1%nat ltac:(lia))) as G1.
  unfold err in G0, G1. change (d_mul_v D2 (rot2 a) p) with r in G0, G1. cbn [dimn sumn] in G0, G1. lazy [add zero R_Num] in G0, G1.
  change (B2R (mfun (rot2 a) 0 0)) with (B2R (fcos a)) in G0. change (mfun (rot2 a) 0 1) with (Bopp (fsin a)) in G0.
  change (B2R (mfun (rot2 a) 1 0)) with (B2R (fsin a)) in G1. change (B2R (mfun (rot2 a) 1 1)) with (B2R (fcos a)) in G1.
  fold x y in G0, G1. rewrite B2R_Bopp in G0. rewrite !Rplus_0_l in G0, G1. assert (U0 : 0 <= (1 + uro) ^ 2 - 1 <= 201 / 100 * uro) by lra. set (u := (1 + uro) ^ 2 - 1) in *. set (v := INR 2 * _ * _) in *. clearbody v u r. destruct U0 as [U0 UK]. split.
  - pose proof (planar_step e (B2R (fcos a)) (- B2R (fsin a)) (cos t) (- sin t) x y 0 (B2R (vfun r 0)) u v (201 / 100 * uro)) as Q. rewrite !Rplus_0_r, Rabs_R0, !Rplus_0_r in Q.
    replace (cos t * x - sin t * y) with (cos t * x + - sin t * y) by ring. eapply Rle_trans; [apply Q| ]; try assumption; try lra.
    all: try (unfold K; lra).
  - pose proof (planar_step e (B2R (fsin a)) (B2R (fcos a)) (sin t) (cos t) x y 0 (B2R (vfun r 1)) u v (201 / 100 * uro)) as Q. rewrite !Rplus_0_r, Rabs_R0, !Rplus_0_r in Q.
    eapply Rle_trans; [apply Q| ]; try assumption; try lra.
    all: try (unfold K; lra).
Qed.

Lemma c107_ksi : forall e (a dx dy px py : fl), trig_ok e a -> e <= 1 -> fits dx -> fits dy -> fits px -> fits py -> let r := m33_mul_v (ksi a dx dy) [| px; py; one |] in
  let x := B2R px in let y := B2R py in let t := B2R a in
  let K := fun d => e * (Rabs x + Rabs y) + 302 / 100 * uro * ((1 + e) * (Rabs x + Rabs y) + Rabs d) + 31 / 10 * eta in
  (forall i, (i < 3)%nat -> is_finite (vfun r i) = true) /\ Rabs (B2R (vfun r 0) - (cos t * x - sin t * y + B2R dx)) <= K (B2R dx) /\ Rabs (B2R (vfun r 1) - (sin t * x + cos t * y + B2R dy)) <= K (B2R dy) /\
  B2R (vfun r 2) = 1.
Proof.
  intros e a dx dy px py T Le Fdx Fdy Fx Fy r x y t K. destruct (ksi_fin e a dx dy px py T Le Fdx Fdy Fx Fy) as [F R2]. fold r in F, R2. split; [exact F| ].
  pose proof (uro_small Hp11) as U. pose proof (uro_pos (prec := prec)) as P. assert (E0 : 0 <= eta) by apply eta_pos.
  pose proof (trig_pos e a T) as e0. destruct (trig_le e a T) as [S1 C1]. destruct T as [[_ Ts] [_ Tc]]. fold t in Ts, Tc.
  assert (Ts' : Rabs (- B2R (fsin a) - - sin t) <= e) by (replace (- B2R (fsin a) - - sin t) with (- (B2R (fsin a) - sin t)) by ring; rewrite Rabs_Ropp; exact Ts).
  assert (S1' : Rabs (- B2R (fsin a)) <= 1 + e) by (rewrite Rabs_Ropp; exact S1).
  pose proof (pow_lin Hp11 3 (302 / 100) ltac:(cbn; lra) ltac:(lra)) as P2. pose proof (pow_mono 0 3 ltac:(lia) : _ <= _ <= (1 + uro) ^ 3) as [_ P2']. rewrite pow_O in P2'.
  assert (V : INR 3 * (1 + uro) ^ 3 * eta <= 31 / 10 * eta) by (apply Rmult_le_compat_r; [exact E0|cbn [INR]; lra]).
  assert (V0 : 0 <= INR 3 * (1 + uro) ^ 3 * eta) by (apply Rmult_le_pos; [apply Rmult_le_pos; [apply pos_INR|lra]|exact E0]).
  set (w := [| px; py; one |] : V3 fl) in *.
  pose proof (c50_mul_v_error D3 (ksi a dx dy) w 0 ltac:(cbn; lia) (F 0%nat ltac:(lia))) as G0. pose proof (c50_mul_v_error D3 (ksi a dx dy) w 1 ltac:(cbn; lia) (F 1%nat ltac:(lia))) as G1.
  unfold err in G0, G1. change (d_mul_v D3 (ksi a dx dy) w) with r in G0, G1. cbn [dimn sumn] in G0, G1. lazy [add zero R_Num] in G0, G1.
  change (mfun (ksi a dx dy) 0 0) with (fcos a) in G0. change (mfun (ksi a dx dy) 0 1) with (Bopp (fsin a)) in G0. change (mfun (ksi a dx dy) 0 2) with dx in G0.
  change (mfun (ksi a dx dy) 1 0) with (fsin a) in G1. change (mfun (ksi a dx dy) 1 1) with (fcos a) in G1. change (mfun (ksi a dx dy) 1 2) with dy in G1.
  change (B2R (vfun w 0)) with x in G0, G1. change (B2R (vfun w 1)) with y in G0, G1. change (vfun w 2) with (one : fl) in G0, G1.
  assert (V1 : B2R (one : fl) = 1) by apply Bone_correct. rewrite V1 in G0, G1. rewrite ?Rmult_1_r in G0, G1.
  rewrite B2R_Bopp in G0. rewrite !Rplus_0_l in G0, G1. assert (U0 : 0 <= (1 + uro) ^ 3 - 1 <= 302 / 100 * uro) by lra. set (u := (1 + uro) ^ 3 - 1) in *. set (v := INR 3 * _ * _) in *. clearbody v u r. destruct U0 as [U0 UK]. split; [ |split].
  - pose proof (planar_step e (B2R (fcos a)) (- B2R (fsin a)) (cos t) (- sin t) x y (B2R dx) (B2R (vfun r 0)) u v (302 / 100 * uro)) as Q.
    replace (cos t * x - sin t * y + B2R dx) with (cos t * x + - sin t * y + B2R dx) by ring. eapply Rle_trans; [apply Q| ]; try assumption; try lra.
    all: try (unfold K; lra).
  - pose proof (planar_step e (B2R (fsin a)) (B2R (fcos a)) (sin t) (cos t) x y (B2R dy) (B2R (vfun r 1)) u v (302 / 100 * uro)) as Q.
    eapply Rle_trans; [apply Q| ]; try assumption; try lra.
    all: try (unfold K; lra).
  - exact R2.
Qed.
End F.

(** ** binary64 *)
#[local] Existing Instance ProofsFloatAngles.prec53.
#[local] Existing Instance ProofsFloatAngles.emax1024.
#[local] Existing Instance crO.
#[local] Notation f64 := (binary_float 53 1024).
#[local] Notation u53 := (FloatFacts.uro (prec := 53)).
#[local] Notation e53 := (FloatFacts.eta (prec := 53) (emax := 1024)).

Lemma fz z : (Z.abs z <= 100)%Z -> is_finite (fofZ z : f64) = true /\ B2R (fofZ z : f64) = IZR z.
Proof. intros Hz. apply (fofZ_int (prec := 53) (emax := 1024) z). eapply Z.le_trans; [exact Hz|cbn; lia]. Qed.
Lemma fz_fits z : (Z.abs z <= 100)%Z -> fits (fofZ z : f64).
Proof.
  intros Hz. destruct (fz z Hz) as [F V]. split; [exact F|rewrite V]. rewrite <- abs_IZR. apply IZR_le in Hz. pose proof (proj2 bigs). lra.
Qed.

(** the point (1, 2) turned by one radian and moved by (3, 4) *)
Example C107_case_planar : let r := m33_mul_v (ksi (fofZ 1) (fofZ 3) (fofZ 4)) [| fofZ 1; fofZ 2; one |] : V3 f64 in
  Rabs (B2R (vfun r 0) - (cos 1 - 2 * sin 1 + 3)) <= / 10 ^ 13 /\ Rabs (B2R (vfun r 1) - (sin 1 + 2 * cos 1 + 4)) <= / 10 ^ 13 /\ B2R (vfun r 2) = 1.
Proof.
  intros r. pose proof uro53 as U. pose proof (uro_pos (prec := 53)) as P. pose proof (eta_tiny (prec := 53) (emax := 1024) ltac:(lia) ltac:(lia)) as T. assert (T0 : 0 <= e53) by apply eta_pos.
  destruct (c107_ksi (prec := 53) (emax := 1024) ltac:(lia) ltac:(lia) _ (fofZ 1 : f64) (fofZ 3) (fofZ 4) (fofZ 1) (fofZ 2) (crO_trig _) ltac:(lra) (fz_fits 3 ltac:(lia)) (fz_fits 4 ltac:(lia)) (fz_fits 1 ltac:(lia)) (fz_fits 2 ltac:(lia))) as (_ & G0 & G1 & G2).
  fold r in G0, G1, G2. rewrite (proj2 (fz 1 ltac:(lia))), (proj2 (fz 2 ltac:(lia))) in G0, G1. rewrite (proj2 (fz 3 ltac:(lia))) in G0. rewrite (proj2 (fz 4 ltac:(lia))) in G1.
  assert (u53 * u53 <= u53) by (apply Rle_trans with (1 * u53); [apply Rmult_le_compat_r; lra|lra]).
  rewrite Rabs_R1, (Rabs_pos_eq 2), (Rabs_pos_eq 3) in G0 by lra. rewrite Rabs_R1, (Rabs_pos_eq 2), (Rabs_pos_eq 4) in G1 by lra. split; [ |split; [ |exact G2]].
  - replace (cos 1 - 2 * sin 1 + 3) with (cos 1 * 1 - sin 1 * 2 + 3) by ring. lra.
  - replace (sin 1 + 2 * cos 1 + 4) with (sin 1 * 1 + cos 1 * 2 + 4) by ring. lra.
Qed.

Example C107_case_rot2 : let r := m22_mul_v (rot2 (fofZ 1)) [| fofZ 3; fofZ 4 |] : V2 f64 in
  Rabs (B2R (vfun r 0) - (3 * cos 1 - 4 * sin 1)) <= / 10 ^ 13 /\ Rabs (B2R (vfun r 1) - (3 * sin 1 + 4 * cos 1)) <= / 10 ^ 13.
Proof.
  intros r. pose proof uro53 as U. pose proof (uro_pos (prec := 53)) as P. pose proof (eta_tiny (prec := 53) (emax := 1024) ltac:(lia) ltac:(lia)) as T. assert (T0 : 0 <= e53) by apply eta_pos.
  destruct (c107_rot2 (prec := 53) (emax := 1024) ltac:(lia) ltac:(lia) _ (fofZ 1 : f64) [| fofZ 3; fofZ 4 |] (crO_trig _) ltac:(lra) (fz_fits 3 ltac:(lia)) (fz_fits 4 ltac:(lia))) as (_ & G0 & G1).
  fold r in G0, G1. change (vfun ([| fofZ 3; fofZ 4 |] : V2 f64) 0) with (fofZ 3 : f64) in G0, G1. change (vfun ([| fofZ 3; fofZ 4 |] : V2 f64) 1) with (fofZ 4 : f64) in G0, G1.
  rewrite (proj2 (fz 1 ltac:(lia))), (proj2 (fz 3 ltac:(lia))), (proj2 (fz 4 ltac:(lia))) in G0, G1. rewrite (Rabs_pos_eq 3), (Rabs_pos_eq 4) in G0, G1 by lra.
  assert (u53 * u53 <= u53) by (apply Rle_trans with (1 * u53); [apply Rmult_le_compat_r; lra|lra]). split.
  - replace (3 * cos 1 - 4 * sin 1) with (cos 1 * 3 - sin 1 * 4) by ring. lra.
  - replace (3 * sin 1 + 4 * cos 1) with (sin 1 * 3 + cos 1 * 4) by ring. lra.
Qed.

(** the quaternion (1, 2, 3, 4) turning at the rate (1, 2, 2) *)
Example C107_case_derivative : let a := mkQ (fofZ 1 : f64) [| fofZ 2; fofZ 3; fofZ 4 |] false in let w := [| fofZ 1; fofZ 2; fofZ 2 |] : V3 f64 in
  Rabs (sumn 4 (fun k => B2R (qcomp k a) * B2R (qcomp k (q_derivative a w)))) <= / 10 ^ 12.
Proof.
  intros a w. pose proof uro53 as U. pose proof (uro_pos (prec := 53)) as P. pose proof (eta_tiny (prec := 53) (emax := 1024) ltac:(lia) ltac:(lia)) as T. assert (T0 : 0 <= e53) by apply eta_pos.
  destruct (c107_derivative (prec := 53) (emax := 1024) ltac:(lia) ltac:(lia) a w) as [_ G].
  - intros k Hk. destruct k as [ |[ |[ |k]]]; [vm_compute; reflexivity..|lia].
  - intros k Hk. destruct k as [ |[ |[ |[ |k]]]]; [vm_compute; reflexivity..|lia].
  - cbv zeta in G. eapply Rle_trans; [exact G| ].
    assert (NA : nrm 4 (fun k => B2R (qcomp k a)) <= 6).
    { apply nrm_le; [lra| ]. unfold sq_sum. cbn [sumn]. lazy [add zero R_Num]. change (qcomp 0 a) with (fofZ 1 : f64). change (qcomp 1 a) with (fofZ 2 : f64). change (qcomp 2 a) with (fofZ 3 : f64). change (qcomp 3 a) with (fofZ 4 : f64).
      rewrite (proj2 (fz 1 ltac:(lia))), (proj2 (fz 2 ltac:(lia))), (proj2 (fz 3 ltac:(lia))), (proj2 (fz 4 ltac:(lia))). lra. }
    assert (NW : nrm 3 (fun k => B2R (vfun w k)) <= 3).
    { apply nrm_le; [lra| ]. unfold sq_sum. cbn [sumn]. lazy [add zero R_Num]. change (vfun w 0) with (fofZ 1 : f64). change (vfun w 1) with (fofZ 2 : f64). change (vfun w 2) with (fofZ 2 : f64).
      rewrite (proj2 (fz 1 ltac:(lia))), (proj2 (fz 2 ltac:(lia))). lra. }
    pose proof (nrm_pos 4 (fun k => B2R (qcomp k a))) as A0. pose proof (nrm_pos 3 (fun k => B2R (vfun w k))) as W0.
    set (A := nrm 4 _) in *. set (W := nrm 3 _) in *. clearbody A W.
    assert (H1 : 0 <= u53 * W <= u53 * 3) by (split; [apply Rmult_le_pos; lra|apply Rmult_le_compat_l; lra]).
    assert (H2 : (403 / 100 * u53 * W + 175 / 100 * e53) * A <= (403 / 100 * (u53 * 3) + 175 / 100 * e53) * 6) by (apply Rmult_le_compat; lra).
    assert (H3 : 0 <= (403 / 100 * u53 * W + 175 / 100 * e53) * A) by (apply Rmult_le_pos; lra).
    apply Rle_trans with (6 * ((403 / 100 * (u53 * 3) + 175 / 100 * e53) * 6 + 9 * e53)); [apply Rmult_le_compat; lra|lra].
Qed.

(** the screw about the direction (0, 0, 1) through (1, 2, 3) with pitch 2 *)
Example C107_case_screw : let r := screw_to_axis ([| fofZ 1; fofZ 2; fofZ 3 |] : V3 f64) [| fofZ 0; fofZ 0; fofZ 1 |] (fofZ 2) in
  Rabs (B2R (vfun r 3) - 2) <= / 10 ^ 13 /\ Rabs (B2R (vfun r 4) - (-1)) <= / 10 ^ 13 /\ Rabs (B2R (vfun r 5) - 2) <= / 10 ^ 13.
Proof.
  intros r. pose proof uro53 as U. pose proof (uro_pos (prec := 53)) as P. pose proof (eta_tiny (prec := 53) (emax := 1024) ltac:(lia) ltac:(lia)) as T. assert (T0 : 0 <= e53) by apply eta_pos.
  pose proof (pow_lin (prec := 53) ltac:(lia) 3 (302 / 100) ltac:(cbn; lra) ltac:(lra)) as P2. pose proof (pow_mono (prec := 53) 0 3 ltac:(lia)) as P3. cbv beta in P3.
  assert (P4 : 1 <= (1 + u53) ^ 3) by (apply pow_R1_Rle; lra). clear P3.
  destruct (c107_screw_to_axis (prec := 53) (emax := 1024) ([| fofZ 1; fofZ 2; fofZ 3 |] : V3 f64) [| fofZ 0; fofZ 0; fofZ 1 |] (fofZ 2)) as [_ G]. fold r in G.
  destruct (fz 0 ltac:(lia)) as [_ V0], (fz 1 ltac:(lia)) as [_ V1], (fz 2 ltac:(lia)) as [_ V2], (fz 3 ltac:(lia)) as [_ V3].
  pose proof (G 0%nat ltac:(lia) ltac:(vm_compute; reflexivity)) as G0. pose proof (G 1%nat ltac:(lia) ltac:(vm_compute; reflexivity)) as G1. pose proof (G 2%nat ltac:(lia) ltac:(vm_compute; reflexivity)) as G2. clear G. clearbody r. destruct r as (z0&z1&z2&z3&z4&z5&[]).
  cbv zeta in G0, G1, G2. lazy [Nat.modulo Nat.divmod Nat.add Nat.sub fst snd vfun List.nth alist acons anil ahd atl] in G0, G1, G2 |- *.
  rewrite ?V0, ?V1, ?V2, ?V3 in G0, G1, G2.
  set (p := (1 + u53) ^ 3) in *. clearbody p.
  assert (L : forall m, 0 <= m <= 10 -> (p - 1) * m + p * (3 * e53) <= / 10 ^ 13).
  { intros m Hm. assert ((p - 1) * m <= 302 / 100 * u53 * 10) by (apply Rmult_le_compat; lra). assert (p * (3 * e53) <= 2 * (3 * e53)) by (apply Rmult_le_compat_r; lra). lra. }
  split; [ |split].
  - eapply Rle_trans; [ |eapply Rle_trans; [exact G0| ]]; [apply Req_le; repeat f_equal; ring| ]. apply L. rewrite !Rabs_mult, !Rabs_R0, ?Rabs_R1, ?(Rabs_pos_eq 2), ?(Rabs_pos_eq 3) by lra. lra.
  - eapply Rle_trans; [ |eapply Rle_trans; [exact G1| ]]; [apply Req_le; repeat f_equal; ring| ]. apply L. rewrite !Rabs_mult, !Rabs_R0, ?Rabs_R1, ?(Rabs_pos_eq 2), ?(Rabs_pos_eq 3) by lra. lra.
  - eapply Rle_trans; [ |eapply Rle_trans; [exact G2| ]]; [apply Req_le; repeat f_equal; ring| ]. apply L. rewrite !Rabs_mult, !Rabs_R0, ?Rabs_R1, ?(Rabs_pos_eq 2), ?(Rabs_pos_eq 3) by lra. lra.
Qed.
