(** * ProofsFloatAdj: the adjoint of float rigid motions (C106) *)

From Coq Require Import List Arith ZArith Reals Bool Lra Lia.
From Flocq Require Import Core Relative Sterbenz Mult_error IEEE754.BinarySingleNaN.
From Verif Require Import Base Scalar Vec Mat2 Mat3 Mat4 Mat5 Mat6 Slices MatLoops MatOps Quat Transf DualQuat RingDet Spec LoopFacts Entries InstZ InstR RFacts TrigFacts LUFacts QRFacts ProofsRing ProofsQuat ProofsRot ProofsRigid ProofsEuler ProofsSlerp ProofsQuatR InstF FloatFacts ProofsFloat ProofsFloat2 ProofsFloatErr ProofsFloatInv ProofsFloatNorm ProofsFloatRot ProofsFloatDrift ProofsFloatRigid ProofsFloatDQ ProofsFloatFromRot ProofsFloatRotH ProofsFloatQR ExpSeries ProofsExp ProofsFloatAngles ProofsFloatChain ProofsFloatEuler ProofsFloatLog.
Local Open Scope R_scope.

(** ** the four blocks *)
Lemma adj_blocks {T} {nT : Num T} {sT : Signed T} (M : M44 T) : exists X, adjoint M = Ok X /\
  let L := m33_mul (skew_from_vec [| mfun M 0 3; mfun M 1 3; mfun M 2 3 |])
             [| [| mfun M 0 0; mfun M 0 1; mfun M 0 2 |]; [| mfun M 1 0; mfun M 1 1; mfun M 1 2 |]; [| mfun M 2 0; mfun M 2 1; mfun M 2 2 |] |] in
  forall i j, (i < 3)%nat -> (j < 3)%nat ->
  mfun X i j = mfun M i j /\ mfun X (3 + i) (3 + j) = mfun M i j /\ mfun X i (3 + j) = zero /\ mfun X (3 + i) j = mfun L i j.
Proof.
  destruct M as ((m00&m01&m02&m03&[])&(m10&m11&m12&m13&[])&(m20&m21&m22&m23&[])&(m30&m31&m32&m33&[])&[]).
  unfold adjoint. lazy [get_parts_raw mfun vfun List.nth List.map alist ix0 ix1 ix2 ix3 ahd atl acons anil fst snd].
  match goal with |- context [m33_mul ?a ?b] => generalize (m33_mul a b) end. intros L. destruct L as ((r00&r01&r02&[])&(r10&r11&r12&[])&(r20&r21&r22&[])&[]).
  eexists. split; [lazy; reflexivity| ]. intros i j Hi Hj. ij i j Hi Hj; repeat split; reflexivity.
Qed.

Section F.
Context {prec emax : Z} {Hp : Prec_gt_0 prec} {He : Prec_lt_emax prec emax} {O : FOracle (binary_float prec emax)}.
Notation fl := (binary_float prec emax).
Notation uro := (uro (prec := prec)).
Notation eta := (eta (prec := prec) (emax := emax)).
Hypothesis Hp11 : (11 <= prec)%Z.
Hypothesis He4 : (4 * prec <= emax)%Z.

Ltac ufin_go := lazymatch goal with
  | |- ufin (add _ _) _ => eapply ufin_add; [exact Hp11|exact He4|ufin_go..]
  | |- ufin (sub _ _) _ => eapply ufin_sub; [exact Hp11|exact He4|ufin_go..]
  | |- ufin (mul _ _) _ => eapply ufin_mul; [exact Hp11|exact He4|ufin_go..]
  | _ => eassumption end.

(** a matrix of large entries applied to a vector of small ones *)
Lemma linear_wide (r : M33 fl) (x : V3 fl) b : b = bpow radix2 (emax - 10) ->
  (forall i j, (i < 3)%nat -> (j < 3)%nat -> is_finite (mfun r i j) = true /\ Rabs (mR r i j) <= 16 * b) -> vec_le 2 x ->
  forall i, (i < 3)%nat -> let y := vfun (m33_mul_v r x) i in
  is_finite y = true /\ Rabs (B2R y - ap (mR r) (vR x) i) <= 301 / 100 * uro * aap (mR r) (vR x) i + 4 * eta.
Proof.
  intros Eb Hr Hx i Hi y. destruct (big_b Hp11 He4) as (b' & Eb' & B1 & BE). rewrite <- Eb in Eb'. subst b'.
  assert (F : is_finite y = true).
  { assert (Lr : forall j, (j < 3)%nat -> ufin (mfun r i j) (16 * b, 0%nat)) by (intros j Hj; apply ufin_leaf; [apply Hr; assumption|apply Hr; assumption|lra]).
    assert (Lx : forall j, (j < 3)%nat -> ufin (vfun x j) (2, 0%nat)) by (intros j Hj; apply ufin_leaf; [apply Hx, Hj|apply Hx, Hj|lra]).
    pose proof (Lr 0%nat ltac:(lia)) as R0. pose proof (Lr 1%nat ltac:(lia)) as R1. pose proof (Lr 2%nat ltac:(lia)) as R2.
    pose proof (Lx 0%nat ltac:(lia)) as X0. pose proof (Lx 1%nat ltac:(lia)) as X1. pose proof (Lx 2%nat ltac:(lia)) as X2.
    clear Eb Lr Lx Hr Hx. revert R0 R1 R2 X0 X1 X2. subst y.
    destruct r as ((r00&r01&r02&[])&(r10&r11&r12&[])&(r20&r21&r22&[])&[]), x as (x0&x1&x2&[]).
    destruct i as [ |[ |[ |i]]]; [ | | |lia];
    lazy [m33_mul_v vfun mfun List.nth List.map alist ix0 ix1 ix2 ix3 ahd atl acons anil fst snd];
    intros R0 R1 R2 X0 X1 X2;
    (eapply (ufin_done Hp11 _ _ _ _ (256 * b) 100); [ufin_go|reflexivity|lra|cbn; lra|lra|lra]). }
  split; [exact F| ].
  pose proof (c50_mul_v_error D3 r x i ltac:(cbn; lia) F) as E. unfold err in E.
  change (d_mul_v D3 r x) with (m33_mul_v r x) in E. fold y in E.
  match type of E with Rabs (_ - ?s) <= _ * ?m + _ => assert (E1 : s = ap (mR r) (vR x) i); [ |assert (E2 : m = aap (mR r) (vR x) i)] end.
  { unfold ap, mR, vR. cbn [dimn sumn]. lazy [add mul zero R_Num]. ring. }
  { unfold aap, mR, vR. cbn [dimn sumn]. lazy [add mul zero R_Num]. ring. }
  rewrite E1, E2 in E. eapply Rle_trans; [exact E| ]. clear E E1 E2.
  pose proof (uro_small Hp11) as U. pose proof (uro_pos (prec := prec)) as P. assert (E0 : 0 <= eta) by apply eta_pos.
  pose proof (pow_lin Hp11 3 (301 / 100) ltac:(cbn; lra) ltac:(lra)) as P4. pose proof (pow_mono 0 3 ltac:(lia) : _ <= _ <= (1 + uro) ^ 3) as [_ P4']. rewrite pow_O in P4'.
  change (dimn D3) with 3%nat. set (p := (1 + uro) ^ 3) in *. clearbody p. pose proof (aap_pos (mR r) (vR x) i) as A0.
  apply Rplus_le_compat; [apply Rmult_le_compat_r; lra| ]. apply Rmult_le_compat_r; [exact E0|cbn [INR]; lra].
Qed.

(** the cross product matrix of the translation times the rotation *)
Lemma low_left E D (M : M44 fl) (A : M44 R) : SE3 A -> closeH E D M A -> E <= / 100 -> tlen A + D <= bpow radix2 (emax - 10) ->
  let S := skew_from_vec ([| mfun M 0 3; mfun M 1 3; mfun M 2 3 |] : V3 fl) in
  let r := [| [| mfun M 0 0; mfun M 0 1; mfun M 0 2 |]; [| mfun M 1 0; mfun M 1 1; mfun M 1 2 |]; [| mfun M 2 0; mfun M 2 1; mfun M 2 2 |] |] : M33 fl in
  let S' := skew_from_vec ([| mfun A 0 3; mfun A 1 3; mfun A 2 3 |] : V3 R) in
  finm (m33_mul S r) /\ dst (mR (m33_mul S r)) (mm (mfun S') (mfun A)) <= 1415 / 1000 * (D + E * (tlen A + D)) + 75 / 10 * uro * (tlen A + D) + 12 * eta
  /\ fnorm (mm (mfun S') (mfun A)) <= 1415 / 1000 * tlen A.
Proof.
  intros SA CM LE LA S r S'. destruct (big_b Hp11 He4) as (b & Eb & B1 & BE). rewrite <- Eb in LA.
  destruct (closeH_sizes E D M A b SA CM LE LA B1) as (M1 & _ & _ & _ & NM & NT). destruct (closeH_parts _ _ _ _ CM) as (E0 & D0 & CM1 & CM2). destruct CM as (FM & LM & _).
  pose proof (uro_small Hp11) as U. pose proof (uro_pos (prec := prec)) as Pu. assert (T0 : 0 <= eta) by apply eta_pos.
  pose proof (SE3_orth A SA) as OA.
  assert (ER : forall i j, (i < 3)%nat -> (j < 3)%nat -> mR r i j = hR M i j) by (intros i j Hi Hj; ij i j Hi Hj; reflexivity).
  assert (tl : 0 <= tlen A) by (rewrite tlen_nrm; apply nrm_pos).
  set (p := hT M). set (P := tA A).
  assert (SS : forall i j, (i < 3)%nat -> (j < 3)%nat -> is_finite (mfun S i j) = true /\ mR S i j = mfun (skew_from_vec [| p 0%nat; p 1%nat; p 2%nat |]) i j).
  { intros i j Hi Hj. unfold S, mR, p, hT. pose proof (FM 0%nat 3%nat ltac:(lia) ltac:(lia)). pose proof (FM 1%nat 3%nat ltac:(lia) ltac:(lia)). pose proof (FM 2%nat 3%nat ltac:(lia) ltac:(lia)).
    generalize dependent (mfun M 0 3). generalize dependent (mfun M 1 3). generalize dependent (mfun M 2 3). clear - Hi Hj. intros. ij i j Hi Hj; lazy [mfun vfun skew_from_vec List.nth List.map alist ix0 ix1 ix2 ahd atl acons anil fst snd];
    (split; [try first [assumption|reflexivity]|first [reflexivity|apply B2R_Bopp]]); try (etransitivity; [apply is_finite_Bopp|assumption]). }
  assert (SV : forall i j, (i < 3)%nat -> (j < 3)%nat -> mR S i j = mfun (skew_from_vec [| p 0%nat; p 1%nat; p 2%nat |]) i j) by (intros i j Hi Hj; apply (SS i j Hi Hj)).
  set (Sp := mfun (skew_from_vec [| p 0%nat; p 1%nat; p 2%nat |])) in *.
  assert (NS : forall f, fnorm (mfun (skew_from_vec [| f 0%nat; f 1%nat; f 2%nat |])) <= 1415 / 1000 * nrm 3 f).
  { intros f. pose proof (nrm_pos 3 f) as n0. apply fnorm_le; [lra| ]. rewrite skew_fro.
    replace (v3_dot [| f 0%nat; f 1%nat; f 2%nat |] [| f 0%nat; f 1%nat; f 2%nat |]) with (nrm 3 f * nrm 3 f).
    2:{ rewrite nrm_sq. unfold sq_sum. lazy. ring. }
    assert (0 <= nrm 3 f * nrm 3 f) by (apply Rmult_le_pos; lra). nra. }
  assert (SP : fnorm Sp <= 1415 / 1000 * (tlen A + D)) by (pose proof (NS p) as Q; fold Sp in Q; change (nrm 3 p) with (nrm 3 (hT M)) in Q; lra).
  assert (SPA : fnorm (mfun S') <= 1415 / 1000 * tlen A) by (rewrite tlen_nrm; exact (NS (tA A))).
  assert (SD : fnorm (fun i j => Sp i j - mfun S' i j) <= 1415 / 1000 * D).
  { eapply Rle_trans; [ |apply Rmult_le_compat_l; [lra|exact CM2]]. eapply Rle_trans; [ |exact (NS (fun k => hT M k - tA A k))]. apply Req_le, fnorm_ext.
    intros i j Hi Hj. unfold Sp, S', p, tA. generalize (hT M 0) (hT M 1) (hT M 2) (mfun A 0 3) (mfun A 1 3) (mfun A 2 3). intros. ij i j Hi Hj; lazy -[Rplus Rmult Ropp Rminus]; ring. }
  assert (L : forall i j, (i < 3)%nat -> (j < 3)%nat -> is_finite (mfun (m33_mul S r) i j) = true /\
    Rabs (mR (m33_mul S r) i j - mm Sp (hR M) i j) <= 301 / 100 * uro * aap Sp (fun k => hR M k j) i + 4 * eta).
  { intros i j Hi Hj. unfold mR at 1. rewrite (mfun_mul S r i j Hi Hj).
    assert (V : forall k, (k < 3)%nat -> vfun ([| mfun r 0 j; mfun r 1 j; mfun r 2 j |] : V3 fl) k = mfun r k j) by (intros k Hk; destruct k as [ |[ |[ |k]]]; [reflexivity..|lia]).
    destruct (linear_wide S [| mfun r 0 j; mfun r 1 j; mfun r 2 j |] b Eb) with (i := i) as [G1 G2]; [ | |exact Hi| ].
    - intros x c Hx Hc. destruct (SS x c Hx Hc) as [Q1 Q2]. split; [exact Q1|rewrite Q2]. pose proof (fnorm_entry Sp x c Hx Hc). lra.
    - intros k Hk. unfold vR. rewrite (V k Hk). change (B2R (mfun r k j)) with (mR r k j). rewrite (ER k j Hk Hj).
      split; [assert (Er : mfun r k j = mfun M k j) by (clear - Hk Hj; ij k j Hk Hj; reflexivity); rewrite Er; apply FM; lia| ].
      pose proof (fnorm_entry (hR M) k j Hk Hj). lra.
    - split; [exact G1| ]. assert (W1 : ap (mR S) (vR [| mfun r 0 j; mfun r 1 j; mfun r 2 j |]) i = mm Sp (hR M) i j).
      { unfold ap, mm, vR. rewrite !V by lia. rewrite !SV by lia. fold (mR r 0%nat j) (mR r 1%nat j) (mR r 2%nat j). rewrite !ER by lia. reflexivity. }
      assert (W2 : aap (mR S) (vR [| mfun r 0 j; mfun r 1 j; mfun r 2 j |]) i = aap Sp (fun k => hR M k j) i).
      { unfold aap, vR. rewrite !V by lia. rewrite !SV by lia. fold (mR r 0%nat j) (mR r 1%nat j) (mR r 2%nat j). rewrite !ER by lia. reflexivity. }
      cbv zeta in G2. rewrite W1, W2 in G2. exact G2. }
  split; [intros i j Hi Hj; apply (L i j Hi Hj)| ]. split.
  2:{ rewrite (fnorm_right _ _ OA). exact SPA. }
  eapply Rle_trans; [apply (dst_tri _ (mm Sp (hR M)))| ].
  assert (R1 : dst (mR (m33_mul S r)) (mm Sp (hR M)) <= 301 / 100 * uro * (fnorm Sp * fnorm (hR M)) + 12 * eta).
  { unfold dst. eapply Rle_trans; [apply (fnorm_mono _ (fun i j => 301 / 100 * uro * aap Sp (fun k => hR M k j) i + 4 * eta)); intros i j Hi Hj; apply (L i j Hi Hj)| ].
    eapply Rle_trans; [apply (fnorm_plus (fun i j => 301 / 100 * uro * aap Sp (fun k => hR M k j) i) (fun _ _ => 4 * eta))| ].
    rewrite (fnorm_scal (301 / 100 * uro) (fun i j => aap Sp (fun k => hR M k j) i)), Rabs_pos_eq by lra.
    pose proof (fnorm_aap Sp (hR M)) as A1.
    assert (A3 : fnorm (fun _ _ => 4 * eta) <= 3 * (4 * eta)) by (apply fnorm_all; [lra|intros; rewrite Rabs_pos_eq by lra; lra]).
    apply Rplus_le_compat; [ |lra]. apply Rmult_le_compat_l; lra. }
  assert (R2 : dst (mm Sp (hR M)) (mm (mfun S') (mfun A)) <= 1415 / 1000 * D + 1415 / 1000 * (tlen A + D) * E).
  { unfold dst. rewrite (fnorm_ext _ (fun i j => mm (fun i j => Sp i j - mfun S' i j) (mfun A) i j + mm Sp (fun i j => hR M i j - mfun A i j) i j)) by (intros; unfold mm; ring).
    eapply Rle_trans; [apply fnorm_plus| ]. apply Rplus_le_compat.
    - rewrite (fnorm_right _ _ OA). exact SD.
    - eapply Rle_trans; [apply fnorm_mm| ]. apply Rmult_le_compat; [apply fnorm_pos|apply fnorm_pos|exact SP|exact CM1]. }
  assert (R3 : uro * (fnorm Sp * fnorm (hR M)) <= uro * (1415 / 1000 * (tlen A + D) * (17421 / 10000))).
  { apply Rmult_le_compat_l; [lra|apply Rmult_le_compat; [apply fnorm_pos|apply fnorm_pos|exact SP|exact NM]]. }
  assert (0 <= uro * (tlen A + D)) by (apply Rmult_le_pos; lra). lra.
Qed.

Lemma c106_adjoint : forall E D (M : M44 fl) (A : M44 R), SE3 A -> closeH E D M A -> E <= / 100 -> tlen A + D <= bpow radix2 (emax - 10) ->
  exists X Y, adjoint M = Ok X /\ adjoint A = Ok Y /\
  (forall i j, (i < 6)%nat -> (j < 6)%nat -> is_finite (mfun X i j) = true) /\
  (forall i j, (i < 3)%nat -> (j < 3)%nat -> B2R (mfun X i (3 + j)) = 0 /\ mfun Y i (3 + j) = 0 /\
     mfun X (3 + i) (3 + j) = mfun X i j /\ mfun Y (3 + i) (3 + j) = mfun Y i j) /\
  sqrt (sumn 3 (fun i => sumn 3 (fun j => (B2R (mfun X i j) - mfun Y i j) ^ 2))) <= E /\
  sqrt (sumn 3 (fun i => sumn 3 (fun j => (B2R (mfun X (3 + i) j) - mfun Y (3 + i) j) ^ 2))) <= 1415 / 1000 * (D + E * (tlen A + D)) + 75 / 10 * uro * (tlen A + D) + 12 * eta.
Proof.
  intros E D M A SA CM LE LA. destruct (adj_blocks M) as (X & EX & BX). destruct (adj_blocks A) as (Y & EY & BY). cbv zeta in BX, BY.
  destruct (low_left E D M A SA CM LE LA) as (FL & DL & _). cbv zeta in FL, DL. destruct CM as (FM & _ & CM & _).
  set (L := m33_mul (skew_from_vec [| mfun M 0 3; mfun M 1 3; mfun M 2 3 |]) _) in *.
  set (S' := skew_from_vec [| mfun A 0 3; mfun A 1 3; mfun A 2 3 |]) in *.
  assert (YL : forall i j, (i < 3)%nat -> (j < 3)%nat -> mfun Y (3 + i) j = mm (mfun S') (mfun A) i j).
  { intros i j Hi Hj. destruct (BY i j Hi Hj) as (_ & _ & _ & Q). rewrite Q. clearbody S'. clear - Hi Hj. destruct S' as ((r00&r01&r02&[])&(r10&r11&r12&[])&(r20&r21&r22&[])&[]).
    unfold mm. generalize (mfun A). intros a. ij i j Hi Hj; lazy -[Rplus Rmult]; ring. }
  exists X, Y. split; [exact EX|split; [exact EY|split; [ |split; [ |split]]]].
  - intros i j Hi Hj. destruct (le_lt_dec 3 i) as [I|I], (le_lt_dec 3 j) as [J|J].
    + replace i with (3 + (i - 3))%nat by lia. replace j with (3 + (j - 3))%nat by lia. destruct (BX (i - 3)%nat (j - 3)%nat ltac:(lia) ltac:(lia)) as (_ & -> & _). apply FM; lia.
    + replace i with (3 + (i - 3))%nat by lia. destruct (BX (i - 3)%nat j ltac:(lia) J) as (_ & _ & _ & ->). apply FL; lia.
    + replace j with (3 + (j - 3))%nat by lia. destruct (BX i (j - 3)%nat I ltac:(lia)) as (_ & _ & -> & _). reflexivity.
    + destruct (BX i j I J) as (-> & _). apply FM; lia.
  - intros i j Hi Hj. destruct (BX i j Hi Hj) as (X1 & X2 & X3 & _), (BY i j Hi Hj) as (Y1 & Y2 & Y3 & _). rewrite X1, X2, X3, Y1, Y2, Y3. repeat split; reflexivity.
  - eapply Rle_trans; [ |exact CM]. apply Req_le. f_equal. apply sumnR_ext. intros i Hi. apply sumnR_ext. intros j Hj. destruct (BX i j Hi Hj) as (-> & _), (BY i j Hi Hj) as (-> & _). reflexivity.
  - eapply Rle_trans; [ |exact DL]. apply Req_le. transitivity (dst (fun i j => B2R (mfun X (3 + i) j)) (fun i j => mfun Y (3 + i) j)).
    + unfold dst, fnorm, nrm, sq_sum. f_equal. lazy [sumn add mul zero R_Num Nat.div Nat.modulo Nat.divmod fst snd Nat.sub]. ring.
    + unfold dst. apply fnorm_ext. intros i j Hi Hj. rewrite YL by assumption. destruct (BX i j Hi Hj) as (_ & _ & _ & ->). reflexivity.
Qed.

(** ** moving a twist *)
Lemma err6 (X : M66 fl) (x : V6 fl) i : (i < 6)%nat -> is_finite (vfun (m66_mul_v X x) i) = true ->
  let r := fun k => B2R (mfun X i k) in let v := fun k => B2R (vfun x k) in
  Rabs (B2R (vfun (m66_mul_v X x) i) - (r 0%nat * v 0%nat + r 1%nat * v 1%nat + r 2%nat * v 2%nat + (r 3%nat * v 3%nat + r 4%nat * v 4%nat + r 5%nat * v 5%nat)))
  <= 605 / 100 * uro * (Rabs (r 0%nat * v 0%nat) + Rabs (r 1%nat * v 1%nat) + Rabs (r 2%nat * v 2%nat) + (Rabs (r 3%nat * v 3%nat) + Rabs (r 4%nat * v 4%nat) + Rabs (r 5%nat * v 5%nat))) + 605 / 100 * eta.
Proof.
  intros Hi F r v. pose proof (c50_mul_v_error D6 X x i ltac:(cbn; lia) F) as E. unfold err in E. change (d_mul_v D6 X x) with (m66_mul_v X x) in E.
  match type of E with Rabs (?y - ?s) <= _ * ?m + _ => assert (E1 : s = r 0%nat * v 0%nat + r 1%nat * v 1%nat + r 2%nat * v 2%nat + (r 3%nat * v 3%nat + r 4%nat * v 4%nat + r 5%nat * v 5%nat));
    [ |assert (E2 : m = Rabs (r 0%nat * v 0%nat) + Rabs (r 1%nat * v 1%nat) + Rabs (r 2%nat * v 2%nat) + (Rabs (r 3%nat * v 3%nat) + Rabs (r 4%nat * v 4%nat) + Rabs (r 5%nat * v 5%nat)))] end.
  { unfold r, v. cbn [dimn sumn]. lazy [add mul zero R_Num]. ring. }
  { unfold r, v. cbn [dimn sumn]. lazy [add mul zero R_Num]. ring. }
  rewrite E1, E2 in E. eapply Rle_trans; [exact E| ]. clear E E1 E2.
  pose proof (uro_small Hp11) as U. pose proof (uro_pos (prec := prec)) as P. assert (E0 : 0 <= eta) by apply eta_pos.
  pose proof (pow_lin Hp11 6 (605 / 100) ltac:(cbn; lra) ltac:(lra)) as P4. pose proof (pow_mono 0 6 ltac:(lia) : _ <= _ <= (1 + uro) ^ 6) as [_ P4']. rewrite pow_O in P4'.
  change (dimn D6) with 6%nat. set (p := (1 + uro) ^ 6) in *. clearbody p.
  apply Rplus_le_compat; [apply Rmult_le_compat_r; [ |lra]| ].
  - repeat apply Rplus_le_le_0_compat; apply Rabs_pos.
  - apply Rmult_le_compat_r; [exact E0|cbn [INR]; lra].
Qed.

(** the error of one row of blocks *)
Lemma two_blocks e dX dZ X Z w v c k : 0 <= c -> 0 <= k ->
  (forall i, (i < 3)%nat -> Rabs (e i - (ap dX w i + ap dZ v i)) <= c * (aap X w i + aap Z v i) + k) ->
  nrm 3 e <= fnorm dX * nrm 3 w + fnorm dZ * nrm 3 v + c * (fnorm X * nrm 3 w + fnorm Z * nrm 3 v) + 17321 / 10000 * k.
Proof.
  intros C K H. rewrite (nrm_ext 3 e (fun i => (ap dX w i + ap dZ v i) + (e i - (ap dX w i + ap dZ v i)))) by (intros; ring).
  eapply Rle_trans; [apply (nrm_plus 3 (fun i => ap dX w i + ap dZ v i))| ].
  assert (A1 : nrm 3 (fun i => ap dX w i + ap dZ v i) <= fnorm dX * nrm 3 w + fnorm dZ * nrm 3 v).
  { eapply Rle_trans; [apply nrm_plus|apply Rplus_le_compat; apply ap_fnorm]. }
  assert (A2 : nrm 3 (fun i => e i - (ap dX w i + ap dZ v i)) <= c * (fnorm X * nrm 3 w + fnorm Z * nrm 3 v) + 17321 / 10000 * k).
  { apply Rle_trans with (nrm 3 (fun i => c * (aap X w i + aap Z v i) + k)); [apply nrm_mono, H| ].
    eapply Rle_trans; [apply (nrm_plus 3 (fun i => c * (aap X w i + aap Z v i)) (fun _ => k))| ]. apply Rplus_le_compat.
    - rewrite (nrm_scal 3 c (fun i => aap X w i + aap Z v i)), Rabs_pos_eq by exact C. apply Rmult_le_compat_l; [exact C| ].
      eapply Rle_trans; [apply nrm_plus|apply Rplus_le_compat; (apply nrm_aap; [rewrite fnorm_fro; apply Rle_refl|apply fnorm_pos])].
    - eapply Rle_trans; [apply (nrm_bound 3 _ k K); intros; rewrite Rabs_pos_eq by exact K; apply Rle_refl|apply Rmult_le_compat_r; [exact K|apply sqrt3]]. }
  lra.
Qed.

Definition part3 (f : nat -> R) (o : nat) : R := sqrt (f o ^ 2 + f (1 + o)%nat ^ 2 + f (2 + o)%nat ^ 2).
Lemma part3_nrm f o : part3 f o = nrm 3 (fun k => f (k + o)%nat).
Proof. unfold part3, nrm, sq_sum. f_equal. lazy [sumn add mul zero R_Num]. rewrite !Nat.add_0_l. change (1 + o)%nat with (Datatypes.S o). ring. Qed.

Lemma c106_twist : forall E D (M : M44 fl) (A : M44 R) (x : V6 fl) (x' : V6 R) X Y, SE3 A -> closeH E D M A -> E <= / 100 -> tlen A + D <= bpow radix2 (emax - 10) ->
  adjoint M = Ok X -> adjoint A = Ok Y -> (forall k, (k < 6)%nat -> vfun x' k = B2R (vfun x k)) ->
  (forall i, (i < 6)%nat -> is_finite (vfun (m66_mul_v X x) i) = true) ->
  let e := fun i => B2R (vfun (m66_mul_v X x) i) - vfun (m66_mul_v Y x') i in
  let w := part3 (vfun x') 0 in let v := part3 (vfun x') 3 in let K := 1415 / 1000 * (D + E * (tlen A + D)) + 75 / 10 * uro * (tlen A + D) + 12 * eta in
  part3 e 0 <= (E + 106 / 10 * uro) * w + 105 / 10 * eta /\
  part3 e 3 <= (E + 106 / 10 * uro) * v + (K + 605 / 100 * uro * (1415 / 1000 * tlen A + K)) * w + 105 / 10 * eta.
Proof.
  intros E D M A x x' X Y SA CM LE LA EX EY Hx FY e w v K.
  pose proof (c106_adjoint E D M A SA CM LE LA) as (X0 & Y0 & EX' & EY' & FX & BL & C1 & C2).
  rewrite EX in EX'. rewrite EY in EY'. injection EX' as <-. injection EY' as <-.
  destruct (low_left E D M A SA CM LE LA) as (_ & _ & NL). cbv zeta in NL.
  destruct (adj_blocks A) as (Y1 & EY1 & BY). rewrite EY in EY1. injection EY1 as <-. cbv zeta in BY.
  pose proof (uro_small Hp11) as U. pose proof (uro_pos (prec := prec)) as Pu. assert (T0 : 0 <= eta) by apply eta_pos.
  destruct (closeH_parts _ _ _ _ CM) as (E0 & D0 & _).
  set (R1 := fun i j => B2R (mfun X i j)). set (Q1 := fun i j => mfun Y i j).
  set (R2 := fun i j => B2R (mfun X (3 + i) j)). set (Q2 := fun i j => mfun Y (3 + i) j).
  assert (N1 : dst R1 Q1 <= E).
  { eapply Rle_trans; [ |exact C1]. apply Req_le. unfold dst, fnorm, nrm, sq_sum. f_equal. unfold R1, Q1. lazy [sumn add mul zero R_Num Nat.div Nat.modulo Nat.divmod fst snd Nat.sub]. ring. }
  assert (N2 : dst R2 Q2 <= K).
  { eapply Rle_trans; [ |exact C2]. apply Req_le. unfold dst, fnorm, nrm, sq_sum. f_equal. unfold R2, Q2. lazy [sumn add mul zero R_Num Nat.div Nat.modulo Nat.divmod fst snd Nat.sub]. ring. }
  assert (F1 : fnorm R1 <= 175 / 100).
  { assert (OA : orthR (mfun A)) by (apply SE3_orth, SA). pose proof (fnorm_near R1 (mfun A) OA) as Q. assert (dst R1 (mfun A) = dst R1 Q1); [ |lra].
    unfold dst. apply fnorm_ext. intros i j Hi Hj. unfold Q1. destruct (BY i j Hi Hj) as (-> & _). reflexivity. }
  assert (F2 : fnorm R2 <= 1415 / 1000 * tlen A + K).
  { pose proof (fnorm_dst R2 Q2) as Q. assert (fnorm Q2 <= 1415 / 1000 * tlen A); [ |lra]. eapply Rle_trans; [ |exact NL]. apply Req_le, fnorm_ext.
    intros i j Hi Hj. unfold Q2. destruct (BY i j Hi Hj) as (_ & _ & _ & Q'). rewrite Q'. generalize (skew_from_vec [| mfun A 0 3; mfun A 1 3; mfun A 2 3 |]). clear - Hi Hj.
    intros ((r00&r01&r02&[])&(r10&r11&r12&[])&(r20&r21&r22&[])&[]). unfold mm. generalize (mfun A). intros a. ij i j Hi Hj; lazy -[Rplus Rmult]; ring. }
  set (wf := fun k => vfun x' k). set (vf := fun k => vfun x' (3 + k)).
  assert (W : w = nrm 3 wf) by (unfold w; rewrite part3_nrm; apply nrm_ext; intros k _; unfold wf; rewrite Nat.add_0_r; reflexivity).
  assert (V : v = nrm 3 vf) by (unfold v; rewrite part3_nrm; apply nrm_ext; intros k _; unfold vf; rewrite Nat.add_comm; reflexivity).
  pose proof (nrm_pos 3 wf) as w0. pose proof (nrm_pos 3 vf) as v0. rewrite <- W in w0. rewrite <- V in v0.
  assert (YE : forall i, (i < 6)%nat -> vfun (m66_mul_v Y x') i = mfun Y i 0 * vfun x' 0 + mfun Y i 1 * vfun x' 1 + mfun Y i 2 * vfun x' 2 + (mfun Y i 3 * vfun x' 3 + mfun Y i 4 * vfun x' 4 + mfun Y i 5 * vfun x' 5)).
  { intros i Hi. pose proof (d_mul_v_entry R_ring D6 Y x' i ltac:(cbn; lia)) as Q. change (d_mul_v D6 Y x') with (m66_mul_v Y x') in Q. etransitivity; [exact Q| ]. cbn [dimn sumn]. lazy [add mul zero R_Num]. ring. }
  split.
  - rewrite part3_nrm. set (e1 := fun k => e (k + 0)%nat).
    assert (T : nrm 3 e1 <= dst R1 Q1 * nrm 3 wf + fnorm (fun _ _ => 0) * nrm 3 vf + 605 / 100 * uro * (fnorm R1 * nrm 3 wf + fnorm (fun _ _ => 0) * nrm 3 vf) + 17321 / 10000 * (605 / 100 * eta)).
    { apply two_blocks; [lra|lra| ]. intros i Hi. unfold e1, e. rewrite Nat.add_0_r. pose proof (err6 X x i ltac:(lia) (FY i ltac:(lia))) as Q. cbv beta zeta in Q.
      destruct (BL i 0%nat Hi ltac:(lia)) as (X0 & Y0 & _), (BL i 1%nat Hi ltac:(lia)) as (X1 & Y1 & _), (BL i 2%nat Hi ltac:(lia)) as (X2 & Y2 & _). cbn [Nat.add] in X0, X1, X2, Y0, Y1, Y2.
      rewrite YE by lia. rewrite <- !Hx in Q by lia. rewrite X0, X1, X2 in Q. rewrite Y0, Y1, Y2. rewrite !Rmult_0_l, !Rabs_R0, !Rplus_0_r in Q. unfold ap, aap, R1, Q1, wf, vf. rewrite !Rmult_0_l, !Rabs_R0, !Rplus_0_r.
      eapply Rle_trans; [ |exact Q]. apply Req_le. f_equal. ring. }
    assert (Z0 : fnorm (fun _ _ => 0) = 0). { unfold fnorm, nrm, sq_sum. lazy [sumn add mul zero R_Num]. rewrite !Rmult_0_l, !Rplus_0_r. apply sqrt_0. }
    rewrite Z0, !Rmult_0_l, !Rplus_0_r, <- W in T. eapply Rle_trans; [exact T| ].
    assert (A1 : dst R1 Q1 * w <= E * w) by (apply Rmult_le_compat_r; assumption).
    assert (A2 : 605 / 100 * uro * (fnorm R1 * w) <= 106 / 10 * uro * w).
    { assert (A3 : fnorm R1 * w <= 175 / 100 * w) by (apply Rmult_le_compat_r; assumption). assert (A4 : 605 / 100 * uro * (fnorm R1 * w) <= 605 / 100 * uro * (175 / 100 * w)) by (apply Rmult_le_compat_l; lra).
      assert (0 <= uro * w) by (apply Rmult_le_pos; lra). lra. }
    lra.
  - rewrite part3_nrm. set (e1 := fun k => e (k + 3)%nat).
    assert (T : nrm 3 e1 <= dst R2 Q2 * nrm 3 wf + dst R1 Q1 * nrm 3 vf + 605 / 100 * uro * (fnorm R2 * nrm 3 wf + fnorm R1 * nrm 3 vf) + 17321 / 10000 * (605 / 100 * eta)).
    { apply two_blocks; [lra|lra| ]. intros i Hi. unfold e1, e. rewrite Nat.add_comm. pose proof (err6 X x (3 + i) ltac:(lia) (FY (3 + i)%nat ltac:(lia))) as Q. cbv beta zeta in Q.
      destruct (BL i 0%nat Hi ltac:(lia)) as (_ & _ & X0 & Y0), (BL i 1%nat Hi ltac:(lia)) as (_ & _ & X1 & Y1), (BL i 2%nat Hi ltac:(lia)) as (_ & _ & X2 & Y2).
      change (3 + 0)%nat with 3%nat in X0, Y0. change (3 + 1)%nat with 4%nat in X1, Y1. change (3 + 2)%nat with 5%nat in X2, Y2.
      rewrite YE by lia. rewrite <- !Hx in Q by lia. rewrite X0, X1, X2 in Q. rewrite Y0, Y1, Y2. unfold ap, aap, R1, Q1, R2, Q2, wf, vf.
      change (3 + 0)%nat with 3%nat. change (3 + 1)%nat with 4%nat. change (3 + 2)%nat with 5%nat.
      eapply Rle_trans; [ |exact Q]. apply Req_le. f_equal. ring. }
    rewrite <- W, <- V in T. eapply Rle_trans; [exact T| ].
    assert (A1 : dst R1 Q1 * v <= E * v) by (apply Rmult_le_compat_r; assumption).
    assert (A0 : dst R2 Q2 * w <= K * w) by (apply Rmult_le_compat_r; assumption).
    assert (A2 : 605 / 100 * uro * (fnorm R1 * v) <= 106 / 10 * uro * v).
    { assert (A3 : fnorm R1 * v <= 175 / 100 * v) by (apply Rmult_le_compat_r; assumption). assert (A4 : 605 / 100 * uro * (fnorm R1 * v) <= 605 / 100 * uro * (175 / 100 * v)) by (apply Rmult_le_compat_l; lra).
      assert (0 <= uro * v) by (apply Rmult_le_pos; lra). lra. }
    assert (A5 : 605 / 100 * uro * (fnorm R2 * w) <= 605 / 100 * uro * ((1415 / 1000 * tlen A + K) * w)).
    { apply Rmult_le_compat_l; [lra|apply Rmult_le_compat_r; assumption]. }
    lra.
Qed.
End F.

(** ** binary64 *)
#[local] Existing Instance ProofsFloatChain.prec53.
#[local] Existing Instance ProofsFloatChain.emax1024.
#[local] Existing Instance crO.
#[local] Notation f64 := (binary_float 53 1024).
#[local] Notation u53 := (FloatFacts.uro (prec := 53)).
#[local] Notation e53 := (FloatFacts.eta (prec := 53) (emax := 1024)).

(** the adjoint of the arm with three joints of C97 *)
Example C106_case_chain : let M := fold_left m44_mul (joint 2 :: joint 3 :: nil) (joint 1) in let A := fold_left m44_mul (joint_exact 2 :: joint_exact 3 :: nil) (joint_exact 1) in
  exists X Y, adjoint M = Ok X /\ adjoint A = Ok Y /\ (forall i j, (i < 6)%nat -> (j < 6)%nat -> is_finite (mfun X i j) = true) /\
  sqrt (sumn 3 (fun i => sumn 3 (fun j => (B2R (mfun X (3 + i) j) - mfun Y (3 + i) j) ^ 2))) <= / 10 ^ 11.
Proof.
  intros M A. destruct C97_case_chain as (SA & C & LA). fold M A in SA, C, LA. clearbody M A.
  pose proof uro53 as U. pose proof (uro_pos (prec := 53)) as P. pose proof (eta_tiny (prec := 53) (emax := 1024) ltac:(lia) ltac:(lia)) as T. assert (T0 : 0 <= e53) by apply eta_pos.
  pose proof (tlen_pos A) as a0. assert (LA' : tlen A + / 10 ^ 12 <= 1000000) by lra.
  assert (u53 * (tlen A + / 10 ^ 12) <= u53 * 4) by (apply Rmult_le_compat_l; lra).
  destruct (c106_adjoint (prec := 53) (emax := 1024) ltac:(lia) ltac:(lia) _ _ M A SA C ltac:(lra) (Rle_trans _ _ _ LA' (proj2 bigs))) as (X & Y & EX & EY & F & _ & _ & G).
  exists X, Y. split; [exact EX|split; [exact EY|split; [exact F| ]]]. eapply Rle_trans; [exact G| ]. lra.
Qed.

(** a quarter turn about z with translation (1, 2, 3), exact in the floats, moving the twist (1, 2, 3, 4, 5, 6) *)
Definition quarterF : M44 f64 := let o := fofZ 1 : f64 in let z := zero : f64 in
  [| [| z; neg o; z; o |]; [| o; z; z; fofZ 2 |]; [| z; z; o; fofZ 3 |]; [| z; z; z; o |] |].
Definition quarterR : M44 R := [| [| 0; -1; 0; 1 |]; [| 1; 0; 0; 2 |]; [| 0; 0; 1; 3 |]; [| 0; 0; 0; 1 |] |].
Definition twF : V6 f64 := [| fofZ 1; fofZ 2; fofZ 3; fofZ 4; fofZ 5; fofZ 6 |].
Definition twR : V6 R := [| 1; 2; 3; 4; 5; 6 |].

Lemma quarter_SE3 : SE3 quarterR.
Proof.
  split; [ |repeat split; reflexivity]. split; [ |split].
  - unfold quarterR. lazy -[Rplus Rmult Ropp Rminus IZR]. repeat (apply f_equal2 || apply f_equal); try reflexivity; ring.
  - unfold quarterR. lazy -[Rplus Rmult Ropp Rminus IZR]. repeat (apply f_equal2 || apply f_equal); try reflexivity; ring.
  - unfold quarterR. lazy -[Rplus Rmult Ropp Rminus IZR]. ring.
Qed.
Lemma fz z : (Z.abs z <= 2 ^ 53)%Z -> is_finite (fofZ z : f64) = true /\ B2R (fofZ z : f64) = IZR z.
Proof. intros Hz. apply (fofZ_int (prec := 53) (emax := 1024) z Hz). Qed.

Lemma quarter_val i j : (i < 4)%nat -> (j < 4)%nat -> is_finite (mfun quarterF i j) = true /\ B2R (mfun quarterF i j) = mfun quarterR i j.
Proof.
  intros Hi Hj. destruct (fz 1 ltac:(cbn; lia)) as [F1 V1], (fz 2 ltac:(cbn; lia)) as [F2 V2], (fz 3 ltac:(cbn; lia)) as [F3 V3].
  unfold quarterF, quarterR. generalize dependent (fofZ 1 : f64). generalize dependent (fofZ 2 : f64). generalize dependent (fofZ 3 : f64). intros x3 F3 V3 x2 F2 V2 x1 F1 V1.
  destruct i as [ |[ |[ |[ |i]]]]; [ | | | |lia]; (destruct j as [ |[ |[ |[ |j]]]]; [ | | | |lia]); lazy [mfun vfun List.nth List.map alist ix0 ix1 ix2 ahd atl acons anil fst snd];
  (split; [first [assumption|reflexivity|etransitivity; [apply is_finite_Bopp|assumption]]|first [assumption|reflexivity|etransitivity; [apply B2R_Bopp|rewrite V1; ring]]]).
Qed.
Lemma quarter_close : closeH 0 0 quarterF quarterR.
Proof.
  assert (QV : forall i j, (i < 4)%nat -> (j < 4)%nat -> B2R (mfun quarterF i j) - mfun quarterR i j = 0) by (intros i j Hi Hj; rewrite (proj2 (quarter_val i j Hi Hj)); ring).
  split; [intros i j Hi Hj; apply quarter_val; assumption|split; [ |split]].
  - intros j Hj. rewrite (proj2 (quarter_val 3 j ltac:(lia) Hj)). destruct j as [ |[ |[ |[ |j]]]]; [reflexivity..|lia].
  - apply Req_le. etransitivity; [ |exact sqrt_0]. f_equal. lazy [sumn add mul zero R_Num]. rewrite !QV by lia. ring.
  - apply Req_le. etransitivity; [ |exact sqrt_0]. f_equal. lazy [sumn add mul zero R_Num]. rewrite !QV by lia. ring.
Qed.

Example C106_case_twist : exists X Y, adjoint quarterF = Ok X /\ adjoint quarterR = Ok Y /\
  forall i, (i < 6)%nat -> Rabs (B2R (vfun (m66_mul_v X twF) i) - vfun (m66_mul_v Y twR) i) <= / 10 ^ 12.
Proof.
  pose proof uro53 as U. pose proof (uro_pos (prec := 53)) as P. pose proof (eta_tiny (prec := 53) (emax := 1024) ltac:(lia) ltac:(lia)) as T. assert (T0 : 0 <= e53) by apply eta_pos.
  assert (LA : tlen quarterR <= 4).
  { unfold tlen. change (mfun quarterR 0 3) with 1. change (mfun quarterR 1 3) with 2. change (mfun quarterR 2 3) with 3. rewrite <- (sqrt_square 4) by lra. apply sqrt_le_1_alt. lra. }
  pose proof (tlen_pos quarterR) as a0. assert (LA' : tlen quarterR + 0 <= 1000000) by lra.
  destruct (c106_adjoint (prec := 53) (emax := 1024) ltac:(lia) ltac:(lia) _ _ _ _ quarter_SE3 quarter_close ltac:(lra) (Rle_trans _ _ _ LA' (proj2 bigs))) as (X & Y & EX & EY & _).
  exists X, Y. split; [exact EX|split; [exact EY| ]].
  assert (FX : forall i, (i < 6)%nat -> is_finite (vfun (m66_mul_v X twF) i) = true).
  { assert (Q : match adjoint quarterF with Ok Z => forallb (fun i => is_finite (vfun (m66_mul_v Z twF) i)) (seq 0 6) | _ => false end = true) by (vm_compute; reflexivity).
    rewrite EX in Q. rewrite forallb_forall in Q. intros i Hi. apply Q, in_seq. lia. }
  destruct (c106_twist (prec := 53) (emax := 1024) ltac:(lia) ltac:(lia) _ _ _ _ twF twR X Y quarter_SE3 quarter_close ltac:(lra) (Rle_trans _ _ _ LA' (proj2 bigs)) EX EY) as [G1 G2].
  { intros k Hk. unfold twF, twR. destruct (fz 1 ltac:(cbn; lia)) as [_ V1], (fz 2 ltac:(cbn; lia)) as [_ V2], (fz 3 ltac:(cbn; lia)) as [_ V3], (fz 4 ltac:(cbn; lia)) as [_ V4], (fz 5 ltac:(cbn; lia)) as [_ V5], (fz 6 ltac:(cbn; lia)) as [_ V6].
    destruct k as [ |[ |[ |[ |[ |[ |k]]]]]]; [symmetry; assumption..|lia]. }
  { exact FX. }
  cbv zeta in G1, G2. set (e := fun i => B2R (vfun (m66_mul_v X twF) i) - vfun (m66_mul_v Y twR) i) in *.
  assert (W : part3 (vfun twR) 0 <= 4). { unfold part3. cbn [Nat.add]. change (vfun twR 0) with 1. change (vfun twR 1) with 2. change (vfun twR 2) with 3. rewrite <- (sqrt_square 4) by lra. apply sqrt_le_1_alt. lra. }
  assert (V : part3 (vfun twR) 3 <= 9). { unfold part3. cbn [Nat.add]. change (vfun twR 3) with 4. change (vfun twR 4) with 5. change (vfun twR 5) with 6. rewrite <- (sqrt_square 9) by lra. apply sqrt_le_1_alt. lra. }
  assert (w0 : 0 <= part3 (vfun twR) 0) by apply sqrt_pos. assert (v0 : 0 <= part3 (vfun twR) 3) by apply sqrt_pos.
  set (w := part3 (vfun twR) 0) in *. set (v := part3 (vfun twR) 3) in *. clearbody w v.
  assert (K1 : 0 <= 1415 / 1000 * (0 + 0 * (tlen quarterR + 0)) + 75 / 10 * u53 * (tlen quarterR + 0) + 12 * e53 <= / 10 ^ 13).
  { assert (0 <= u53 * tlen quarterR <= u53 * 4) by (split; [apply Rmult_le_pos; lra|apply Rmult_le_compat_l; lra]). lra. }
  set (K := 1415 / 1000 * (0 + 0 * (tlen quarterR + 0)) + 75 / 10 * u53 * (tlen quarterR + 0) + 12 * e53) in *. clearbody K.
  assert (L1 : part3 e 0 <= / 10 ^ 13). { assert (u53 * w <= u53 * 4) by (apply Rmult_le_compat_l; lra). lra. }
  assert (L2 : part3 e 3 <= / 10 ^ 12).
  { assert (u53 * v <= u53 * 9) by (apply Rmult_le_compat_l; lra). assert (0 <= u53 * (1415 / 1000 * tlen quarterR + K) <= u53 * 6) by (split; [apply Rmult_le_pos; lra|apply Rmult_le_compat_l; lra]).
    assert ((K + 605 / 100 * u53 * (1415 / 1000 * tlen quarterR + K)) * w <= (K + 605 / 100 * (u53 * 6)) * 4) by (apply Rmult_le_compat; lra). lra. }
  assert (CC : forall o i, (i < 3)%nat -> Rabs (e (i + o)%nat) <= part3 e o).
  { intros o i Hi. rewrite part3_nrm. exact (comp_nrm 3 (fun k => e (k + o)%nat) i Hi). }
  intros i Hi. change (Rabs (e i) <= / 10 ^ 12). destruct (le_lt_dec 3 i) as [I|I].
  - replace i with ((i - 3) + 3)%nat by lia. eapply Rle_trans; [apply CC; lia|exact L2].
  - replace i with (i + 0)%nat by lia. eapply Rle_trans; [apply CC; lia|lra].
Qed.
