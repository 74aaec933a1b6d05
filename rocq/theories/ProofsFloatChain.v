(** * ProofsFloatChain: chains of float rigid motions (C97) *)

From Coq Require Import List Arith ZArith Reals Bool Lra Lia.
From Flocq Require Import Core Relative Sterbenz Mult_error IEEE754.BinarySingleNaN.
From Verif Require Import Base Scalar Vec Mat2 Mat3 Mat4 Mat5 Mat6 Slices MatLoops MatOps Quat Transf DualQuat RingDet Spec LoopFacts Entries InstZ InstR RFacts LUFacts QRFacts ProofsRing ProofsQuat ProofsRot ProofsRigid InstF FloatFacts ProofsFloat ProofsFloat2 ProofsFloatErr ProofsFloatInv ProofsFloatNorm ProofsFloatRot ProofsFloatDrift ProofsFloatRigid ProofsFloatDQ ProofsFloatFromRot ProofsFloatQR ExpSeries ProofsExp ProofsFloatAngles.
Local Open Scope R_scope.

(** ** the exact product of rigid motions *)
Lemma SE3_orth (A : M44 R) : SE3 A -> orthR (mfun A).
Proof.
  intros [S _]. apply SO3_orth in S.
  assert (E : forall i j, (i < 3)%nat -> (j < 3)%nat -> mfun (rot_of A) i j = mfun A i j) by (intros i j Hi Hj; ij i j Hi Hj; reflexivity).
  destruct S as [S1 S2]. split; intros i j Hi Hj.
  - rewrite <- (S1 i j Hi Hj). unfold gram. rewrite !E by lia. reflexivity.
  - rewrite <- (S2 i j Hi Hj). unfold gram, tr. rewrite !E by lia. reflexivity.
Qed.
Lemma SE3_row (A : M44 R) j : SE3 A -> (j < 4)%nat -> mfun A 3 j = if Nat.eqb j 3 then 1 else 0.
Proof. intros (_ & A0 & A1 & A2 & A3) Hj. destruct j as [ |[ |[ |[ |j]]]]; [exact A0|exact A1|exact A2|exact A3|lia]. Qed.
Lemma mul_entry (A B : M44 R) i j : (i < 4)%nat -> (j < 4)%nat -> mfun (m44_mul A B) i j = mfun A i 0 * mfun B 0 j + mfun A i 1 * mfun B 1 j + mfun A i 2 * mfun B 2 j + mfun A i 3 * mfun B 3 j.
Proof.
  intros Hi Hj. change (m44_mul A B) with (d_mul D4 A B). rewrite (d_mul_dotl D4 A B i j Hi Hj). cbn [dimn dotl ord]. unfold add, mul, R_Num.
  destruct (Nat.eqb i 2); cbn [Nat.modulo Nat.add Nat.divmod Nat.sub fst snd]; ring.
Qed.
Lemma mul_rot (A B : M44 R) i j : SE3 B -> (i < 3)%nat -> (j < 3)%nat -> mfun (m44_mul A B) i j = mm (mfun A) (mfun B) i j.
Proof.
  intros S Hi Hj. rewrite mul_entry, (SE3_row B j S) by lia. replace (Nat.eqb j 3) with false by (symmetry; apply Nat.eqb_neq; lia). unfold mm. ring.
Qed.
Lemma mul_trans (A B : M44 R) i : SE3 B -> (i < 3)%nat -> mfun (m44_mul A B) i 3 = ap (mfun A) (fun k => mfun B k 3%nat) i + mfun A i 3.
Proof. intros S Hi. rewrite mul_entry, (SE3_row B 3 S) by lia. cbn [Nat.eqb]. unfold ap. ring. Qed.

(** orthogonal matrices preserve lengths; nearly orthogonal ones nearly do *)
Lemma ap_orth X w : orthR X -> nrm 3 (ap X w) = nrm 3 w.
Proof.
  intros [H _]. unfold nrm. f_equal.
  transitivity (w 0%nat * w 0%nat * gram X 0 0 + w 1%nat * w 1%nat * gram X 1 1 + w 2%nat * w 2%nat * gram X 2 2 + 2 * (w 0%nat * w 1%nat * gram X 0 1 + w 0%nat * w 2%nat * gram X 0 2 + w 1%nat * w 2%nat * gram X 1 2)).
  - unfold sq_sum, gram, ap. lazy [sumn add mul zero R_Num]. ring.
  - rewrite !H by lia. unfold sq_sum, dlt. lazy [sumn add mul zero R_Num Nat.eqb]. ring.
Qed.
Lemma ap_fnorm X w : nrm 3 (ap X w) <= fnorm X * nrm 3 w.
Proof. apply nrm_ap; [rewrite fnorm_fro; apply Rle_refl|apply fnorm_pos]. Qed.
Lemma ap_near X Y w : orthR Y -> nrm 3 (ap X w) <= (1 + dst X Y) * nrm 3 w.
Proof.
  intros H. rewrite (nrm_ext 3 _ (fun i => ap Y w i + ap (fun i j => X i j - Y i j) w i)) by (intros; unfold ap; ring).
  eapply Rle_trans; [apply nrm_plus| ]. rewrite (ap_orth Y w H). pose proof (ap_fnorm (fun i j => X i j - Y i j) w) as A. fold (dst X Y) in A. lra.
Qed.

Lemma abs_m1 : Rabs (-1) = 1.
Proof. rewrite Rabs_left by lra. ring. Qed.

Section F.
Context {prec emax : Z} {Hp : Prec_gt_0 prec} {He : Prec_lt_emax prec emax} {O : FOracle (binary_float prec emax)}.
Notation fl := (binary_float prec emax).
Notation uro := (uro (prec := prec)).
Notation eta := (eta (prec := prec) (emax := emax)).
Hypothesis Hp11 : (11 <= prec)%Z.
Hypothesis He4 : (4 * prec <= emax)%Z.

Ltac ufin_go := lazymatch goal with
  | |- ufin (add _ _) _ => eapply ufin_add; [exact Hp11|exact He4|ufin_go..]
  | |- ufin (sub _ _) _ => eapply ufin_sub; [exact Hp11|exact He4|ufin_go..]
  | |- ufin (mul _ _) _ => eapply ufin_mul; [exact Hp11|exact He4|ufin_go..]
  | |- _ => eassumption
  end.

(** a finite float matrix with the last row of a rigid motion, whose rotation block is within [E] and whose last column
    within [D] of those of the real matrix [A] (roots of sums of squared differences) *)
Definition closeH (E D : R) (M : M44 fl) (A : M44 R) : Prop :=
  (forall i j, (i < 4)%nat -> (j < 4)%nat -> is_finite (mfun M i j) = true) /\
  (forall j, (j < 4)%nat -> B2R (mfun M 3 j) = if Nat.eqb j 3 then 1 else 0) /\
  sqrt (sumn 3 (fun i => sumn 3 (fun j => (B2R (mfun M i j) - mfun A i j) ^ 2))) <= E /\
  sqrt (sumn 3 (fun i => (B2R (mfun M i 3) - mfun A i 3) ^ 2)) <= D.
(** the length of the translation of a real matrix *)
Definition tlen (A : M44 R) : R := sqrt (mfun A 0 3 ^ 2 + mfun A 1 3 ^ 2 + mfun A 2 3 ^ 2).

Definition hR (M : M44 fl) (i j : nat) : R := B2R (mfun M i j).
Definition hT (M : M44 fl) (i : nat) : R := B2R (mfun M i 3).
Definition tA (A : M44 R) (i : nat) : R := mfun A i 3.
Lemma tlen_nrm A : tlen A = nrm 3 (tA A).
Proof. unfold tlen, nrm, sq_sum, tA. f_equal. lazy [sumn add mul zero R_Num]. ring. Qed.
Lemma closeH_dst (M : M44 fl) (A : M44 R) : sqrt (sumn 3 (fun i => sumn 3 (fun j => (B2R (mfun M i j) - mfun A i j) ^ 2))) = dst (hR M) (mfun A).
Proof. unfold dst, fnorm, nrm, sq_sum, hR. f_equal. lazy [sumn add mul zero R_Num Nat.div Nat.modulo Nat.divmod fst snd Nat.sub]. ring. Qed.
Lemma closeH_nrm (M : M44 fl) (A : M44 R) : sqrt (sumn 3 (fun i => (B2R (mfun M i 3) - mfun A i 3) ^ 2)) = nrm 3 (fun i => hT M i - tA A i).
Proof. unfold nrm, sq_sum, hT, tA. f_equal. lazy [sumn add mul zero R_Num]. ring. Qed.
Lemma closeH_parts E D M A : closeH E D M A -> 0 <= E /\ 0 <= D /\ dst (hR M) (mfun A) <= E /\ nrm 3 (fun i => hT M i - tA A i) <= D.
Proof.
  intros (_ & _ & H1 & H2). rewrite closeH_dst in H1. rewrite closeH_nrm in H2. pose proof (dst_pos (hR M) (mfun A)). pose proof (nrm_pos 3 (fun i => hT M i - tA A i)).
  split; [lra|split; [lra|split; assumption]].
Qed.
Lemma closeH_weaken E D E' D' M A : closeH E D M A -> E <= E' -> D <= D' -> closeH E' D' M A.
Proof. intros (H1 & H2 & H3 & H4) L L'. split; [exact H1|split; [exact H2|split; lra]]. Qed.

(** sizes of the entries *)
Lemma closeH_sizes E D M A b : SE3 A -> closeH E D M A -> E <= / 100 -> tlen A + D <= b -> 1 <= b ->
  (forall i k, (i < 4)%nat -> (k < 3)%nat -> ufin (mfun M i k) (2, 0%nat)) /\ (forall i, (i < 4)%nat -> ufin (mfun M i 3) (16 * b, 0%nat)) /\
  (forall k j, (k < 3)%nat -> (j < 4)%nat -> ufin (mfun M k j) (16 * b, 0%nat)) /\ (forall j, (j < 4)%nat -> ufin (mfun M 3 j) (1, 0%nat)) /\
  fnorm (hR M) <= 17421 / 10000 /\ nrm 3 (hT M) <= tlen A + D.
Proof.
  intros S C LE LD B. destruct (closeH_parts _ _ _ _ C) as (E0 & D0 & C1 & C2). destruct C as (F & L & _).
  pose proof (SE3_orth A S) as OA.
  assert (B1 : forall i k, (i < 3)%nat -> (k < 3)%nat -> Rabs (hR M i k) <= 101 / 100).
  { intros i k Hi Hk. pose proof (orth_entry (mfun A) i k OA Hi Hk) as A1. pose proof (fnorm_entry (fun i j => hR M i j - mfun A i j) i k Hi Hk) as A2. cbv beta in A2. fold (dst (hR M) (mfun A)) in A2.
    replace (hR M i k) with ((hR M i k - mfun A i k) + mfun A i k) by ring. eapply Rle_trans; [apply Rabs_triang|lra]. }
  assert (N : nrm 3 (hT M) <= tlen A + D).
  { rewrite tlen_nrm in *. rewrite (nrm_ext 3 _ (fun i => tA A i + (hT M i - tA A i))) by (intros; ring). eapply Rle_trans; [apply nrm_plus|lra]. }
  assert (B2 : forall i, (i < 3)%nat -> Rabs (hT M i) <= b) by (intros i Hi; eapply Rle_trans; [exact (comp_nrm 3 (hT M) i Hi)|lra]).
  assert (B3 : forall j, (j < 4)%nat -> Rabs (B2R (mfun M 3 j)) <= 1) by (intros j Hj; rewrite (L j Hj); destruct (Nat.eqb j 3); rewrite ?Rabs_R1, ?Rabs_R0; lra).
  assert (I3 : forall i, (i < 4)%nat -> (i < 3)%nat \/ i = 3%nat) by (intros; lia).
  split; [ |split; [ |split; [ |split; [ |split]]]].
  - intros i k Hi Hk. apply ufin_leaf; [apply F; lia| |lra]. destruct (I3 i Hi) as [H|H]; [pose proof (B1 i k H Hk) as Q; unfold hR in Q; lra|subst i; pose proof (B3 k ltac:(lia)); lra].
  - intros i Hi. apply ufin_leaf; [apply F; lia| |lra]. destruct (I3 i Hi) as [H|H]; [pose proof (B2 i H) as Q; unfold hT in Q; lra|subst i; pose proof (B3 3%nat ltac:(lia)); lra].
  - intros k j Hk Hj. apply ufin_leaf; [apply F; lia| |lra]. destruct (I3 j Hj) as [H|H]; [pose proof (B1 k j Hk H) as Q; unfold hR in Q; lra|subst j; pose proof (B2 k Hk) as Q; unfold hT in Q; lra].
  - intros j Hj. apply ufin_leaf; [apply F; lia|apply B3, Hj|lra].
  - pose proof (fnorm_near (hR M) (mfun A) OA). lra.
  - exact N.
Qed.

(** the product in floating point *)
Lemma mul44_err (M N : M44 fl) b : b = bpow radix2 (emax - 10) ->
  (forall i k, (i < 4)%nat -> (k < 3)%nat -> ufin (mfun M i k) (2, 0%nat)) -> (forall i, (i < 4)%nat -> ufin (mfun M i 3) (16 * b, 0%nat)) ->
  (forall k j, (k < 3)%nat -> (j < 4)%nat -> ufin (mfun N k j) (16 * b, 0%nat)) -> (forall j, (j < 4)%nat -> ufin (mfun N 3 j) (1, 0%nat)) ->
  forall i j, (i < 4)%nat -> (j < 4)%nat -> is_finite (mfun (m44_mul M N) i j) = true /\
  Rabs (B2R (mfun (m44_mul M N) i j) - sumn 4 (fun k => B2R (mfun M i k) * B2R (mfun N k j))) <= 401 / 100 * uro * sumn 4 (fun k => Rabs (B2R (mfun M i k) * B2R (mfun N k j))) + 5 * eta.
Proof.
  intros Eb H1 H2 H3 H4 i j Hi Hj. destruct (big_b Hp11 He4) as (b' & Eb' & B1 & BE). rewrite <- Eb in Eb'. subst b'.
  assert (FQ : is_finite (mfun (m44_mul M N) i j) = true).
  { pose proof (H1 i 0%nat Hi ltac:(lia)) as X0. pose proof (H1 i 1%nat Hi ltac:(lia)) as X1. pose proof (H1 i 2%nat Hi ltac:(lia)) as X2. pose proof (H2 i Hi) as X3.
    pose proof (H3 0%nat j ltac:(lia) Hj) as Y0. pose proof (H3 1%nat j ltac:(lia) Hj) as Y1. pose proof (H3 2%nat j ltac:(lia) Hj) as Y2. pose proof (H4 j Hj) as Y3.
    change (m44_mul M N) with (d_mul D4 M N). rewrite (d_mul_dotl D4 M N i j Hi Hj). cbn [dimn dotl ord].
    destruct (Nat.eqb i 2); cbn [Nat.modulo Nat.add Nat.divmod Nat.sub fst snd];
    (eapply (ufin_done Hp11 _ _ _ _ (256 * b) 100); [ufin_go|reflexivity|lra|cbn; lra|lra|lra]). }
  split; [exact FQ| ]. pose proof (c50_mul_error D4 M N i j Hi Hj FQ) as E. unfold err in E. change (d_mul D4 M N) with (m44_mul M N) in E.
  pose proof (uro_small Hp11) as U. pose proof (uro_pos (prec := prec)) as P. assert (E0 : 0 <= eta) by apply eta_pos.
  assert (S0 : 0 <= sumn 4 (fun k => Rabs (B2R (mfun M i k) * B2R (mfun N k j)))).
  { cbn [sumn]. lazy [add zero R_Num]. pose proof (Rabs_pos (B2R (mfun M i 0) * B2R (mfun N 0 j))). pose proof (Rabs_pos (B2R (mfun M i 1) * B2R (mfun N 1 j))).
    pose proof (Rabs_pos (B2R (mfun M i 2) * B2R (mfun N 2 j))). pose proof (Rabs_pos (B2R (mfun M i 3) * B2R (mfun N 3 j))). lra. }
  eapply Rle_trans; [exact E| ]. change (dimn D4) with 4%nat.
  pose proof (pow_lin Hp11 4 (401 / 100) ltac:(cbn; lra) ltac:(lra)) as P4. pose proof (pow_mono 0 4 ltac:(lia) : _ <= _ <= (1 + uro) ^ 4) as [_ P4']. rewrite pow_O in P4'.
  set (pw := (1 + uro) ^ 4) in *. clearbody pw. set (ss := sumn 4 _) in *. clearbody ss. clear E.
  apply Rplus_le_compat; [apply Rmult_le_compat_r; lra| ]. apply Rmult_le_compat_r; [exact E0|cbn [INR]; lra].
Qed.

(** a row 0, 0, 0, 1 times a column is the last number of the column, exactly *)
Lemma last_row_exact (f g : nat -> fl) : is_finite (dotl 4 f g) = true -> (forall j, (j < 4)%nat -> B2R (f j) = if Nat.eqb j 3 then 1 else 0) -> B2R (dotl 4 f g) = B2R (g 3%nat).
Proof.
  intros F L. cbn [dotl] in F |- *. lazy [add mul F_Num] in F |- *.
  destruct (plus_finite _ _ F) as (F1 & G3 & ->). destruct (plus_finite _ _ F1) as (F2 & G2 & ->). destruct (plus_finite _ _ F2) as (G0 & G1 & ->).
  destruct (mult_finite _ _ G0) as (_ & _ & ->). destruct (mult_finite _ _ G1) as (_ & _ & ->). destruct (mult_finite _ _ G2) as (_ & _ & ->). destruct (mult_finite _ _ G3) as (_ & _ & ->).
  rewrite !L by lia. cbn [Nat.eqb]. rewrite !Rmult_0_l, Rmult_1_l, !round_0 by apply valid_rnd_N. rewrite !Rplus_0_l, !round_0 by apply valid_rnd_N. rewrite !Rplus_0_l, !round_0 by apply valid_rnd_N. rewrite Rplus_0_l.
  rewrite round_generic; [ |apply valid_rnd_N|apply generic_format_round; [apply FLT_exp_valid; exact Hp|apply valid_rnd_N]].
  rewrite round_generic; [reflexivity|apply valid_rnd_N|apply format_B2R].
Qed.

(** the error of the translation column *)
Lemma trans_err E D (M : M44 fl) (A : M44 R) (w : nat -> R) (v y : nat -> R) Dv : SE3 A -> dst (hR M) (mfun A) <= E -> E <= / 100 -> nrm 3 (fun i => hT M i - tA A i) <= D ->
  nrm 3 (fun i => w i - v i) <= Dv -> 0 <= D -> 0 <= Dv ->
  (forall i, (i < 3)%nat -> Rabs (y i - (ap (hR M) w i + hT M i)) <= 401 / 100 * uro * (aap (hR M) w i + Rabs (hT M i)) + 5 * eta) ->
  nrm 3 (fun i => y i - (ap (mfun A) v i + tA A i)) <= D + Dv + E * (nrm 3 v + Dv) + 7 * uro * (tlen A + D + nrm 3 v + Dv) + 9 * eta.
Proof.
  intros S C1 LE C2 CV D0 V0 H. pose proof (uro_small Hp11) as U. pose proof (uro_pos (prec := prec)) as P. assert (T0 : 0 <= eta) by apply eta_pos.
  pose proof (SE3_orth A S) as OA. pose proof (dst_pos (hR M) (mfun A)) as d0.
  assert (Nw : nrm 3 w <= nrm 3 v + Dv).
  { rewrite (nrm_ext 3 w (fun i => v i + (w i - v i))) by (intros; ring). eapply Rle_trans; [apply nrm_plus|lra]. }
  assert (NT : nrm 3 (hT M) <= tlen A + D).
  { rewrite tlen_nrm. rewrite (nrm_ext 3 (hT M) (fun i => tA A i + (hT M i - tA A i))) by (intros; ring). eapply Rle_trans; [apply nrm_plus|lra]. }
  rewrite (nrm_ext 3 _ (fun i => (y i - (ap (hR M) w i + hT M i)) + ((ap (hR M) (fun k => w k - v k) i + ap (fun i j => hR M i j - mfun A i j) v i) + (hT M i - tA A i)))) by (intros; unfold ap; ring).
  eapply Rle_trans; [apply (nrm_plus 3 (fun i => y i - (ap (hR M) w i + hT M i)))| ].
  assert (R1 : nrm 3 (fun i => y i - (ap (hR M) w i + hT M i)) <= 7 * uro * (tlen A + D + nrm 3 v + Dv) + 9 * eta).
  { eapply Rle_trans; [apply (nrm_mono 3 _ _ H)| ].
    eapply Rle_trans; [apply (nrm_plus 3 (fun i => 401 / 100 * uro * (aap (hR M) w i + Rabs (hT M i))) (fun _ => 5 * eta))| ].
    rewrite (nrm_scal 3 (401 / 100 * uro) (fun i => aap (hR M) w i + Rabs (hT M i))), Rabs_pos_eq by lra.
    pose proof (nrm_plus 3 (aap (hR M) w) (fun i => Rabs (hT M i))) as Q1.
    assert (Q2 : nrm 3 (aap (hR M) w) <= 17421 / 10000 * nrm 3 w).
    { pose proof (fnorm_near (hR M) (mfun A) OA) as G. eapply Rle_trans; [apply (nrm_aap (hR M) w (fnorm (hR M))); [rewrite fnorm_fro; apply Rle_refl|apply fnorm_pos]| ].
      apply Rmult_le_compat_r; [apply nrm_pos|lra]. }
    assert (Q3 : nrm 3 (fun i => Rabs (hT M i)) = nrm 3 (hT M)).
    { unfold nrm, sq_sum. f_equal. lazy [sumn add mul zero R_Num]. rewrite <- !Rabs_mult, !Rabs_pos_eq by nra. reflexivity. }
    assert (Q4 : nrm 3 (fun _ => 5 * eta) <= 9 * eta) by (apply nrm_le; [lra| ]; unfold sq_sum; lazy [sumn add mul zero R_Num]; nra).
    rewrite Q3 in Q1. pose proof (nrm_pos 3 w) as W0. pose proof (nrm_pos 3 v) as v0. pose proof (nrm_pos 3 (hT M)) as h0. pose proof (nrm_pos 3 (fun i => aap (hR M) w i + Rabs (hT M i))) as s0.
    assert (Q5 : nrm 3 (fun i => aap (hR M) w i + Rabs (hT M i)) <= 17421 / 10000 * (tlen A + D + nrm 3 v + Dv)) by lra.
    assert (401 / 100 * uro * nrm 3 (fun i => aap (hR M) w i + Rabs (hT M i)) <= 401 / 100 * uro * (17421 / 10000 * (tlen A + D + nrm 3 v + Dv))) by (apply Rmult_le_compat_l; lra).
    assert (0 <= uro * (tlen A + D + nrm 3 v + Dv)) by (apply Rmult_le_pos; lra). lra. }
  assert (R2 : nrm 3 (fun i => (ap (hR M) (fun k => w k - v k) i + ap (fun i j => hR M i j - mfun A i j) v i) + (hT M i - tA A i)) <= D + Dv + E * (nrm 3 v + Dv)).
  { eapply Rle_trans; [apply (nrm_plus 3 (fun i => ap (hR M) (fun k => w k - v k) i + ap (fun i j => hR M i j - mfun A i j) v i))| ].
    pose proof (nrm_plus 3 (ap (hR M) (fun k => w k - v k)) (ap (fun i j => hR M i j - mfun A i j) v)) as Q1.
    pose proof (ap_near (hR M) (mfun A) (fun k => w k - v k) OA) as Q2. pose proof (ap_fnorm (fun i j => hR M i j - mfun A i j) v) as Q3. fold (dst (hR M) (mfun A)) in Q3.
    pose proof (nrm_pos 3 v) as v0. pose proof (nrm_pos 3 (fun k => w k - v k)) as w0.
    assert (dst (hR M) (mfun A) * nrm 3 v <= E * nrm 3 v) by (apply Rmult_le_compat_r; lra).
    assert ((1 + dst (hR M) (mfun A)) * nrm 3 (fun k => w k - v k) <= (1 + E) * Dv) by (apply Rmult_le_compat; lra). lra. }
  lra.
Qed.

(** ** one product *)
Lemma c97_compose : forall (M N : M44 fl) (A B : M44 R) E D E' D', SE3 A -> SE3 B -> closeH E D M A -> closeH E' D' N B -> E <= / 100 -> E' <= / 100 ->
  tlen A + D <= bpow radix2 (emax - 10) -> tlen B + D' <= bpow radix2 (emax - 10) ->
  closeH (E + E' + E * E' + 123 / 10 * uro) (D + D' + E * (tlen B + D') + 7 * uro * (tlen A + D + tlen B + D') + 9 * eta) (m44_mul M N) (m44_mul A B).
Proof.
  intros M N A B E D E' D' SA SB CM CN LE LE' LA LB. destruct (big_b Hp11 He4) as (b & Eb & B1 & BE). rewrite <- Eb in LA, LB.
  destruct (closeH_sizes E D M A b SA CM LE LA B1) as (M1 & M2 & _ & _ & NM & _). destruct (closeH_sizes E' D' N B b SB CN LE' LB B1) as (_ & _ & N3 & N4 & NN & _).
  pose proof (mul44_err M N b Eb M1 M2 N3 N4) as G. destruct (closeH_parts _ _ _ _ CM) as (E0 & D0 & CM1 & CM2). destruct (closeH_parts _ _ _ _ CN) as (E0' & D0' & CN1 & CN2).
  destruct CM as (FM & LM & _). destruct CN as (FN & LN & _).
  pose proof (uro_small Hp11) as U. pose proof (uro_pos (prec := prec)) as P. pose proof (eta_tiny Hp11 He4) as T. assert (T0 : 0 <= eta) by apply eta_pos.
  pose proof (SE3_orth A SA) as OA. pose proof (SE3_orth B SB) as OB.
  split; [intros i j Hi Hj; apply (G i j Hi Hj)|split; [ |split]].
  - intros j Hj. destruct (G 3%nat j ltac:(lia) Hj) as [F _]. pose proof (d_mul_dotl D4 M N 3 j ltac:(cbn; lia) Hj) as Q. change (d_mul D4 M N) with (m44_mul M N) in Q. cbn [dimn] in Q. rewrite Q in F. rewrite Q.
    rewrite (last_row_exact _ _ F); [apply LN, Hj|exact LM].
  - rewrite closeH_dst. eapply Rle_trans; [apply (dst_tri _ (mm (hR M) (hR N)))| ].
    assert (X1 : dst (mm (hR M) (hR N)) (mfun (m44_mul A B)) <= E + E' + E * E').
    { replace (dst (mm (hR M) (hR N)) (mfun (m44_mul A B))) with (dst (mm (hR M) (hR N)) (mm (mfun A) (mfun B))).
      - eapply Rle_trans; [apply mm_dst; assumption| ]. pose proof (dst_pos (hR M) (mfun A)). pose proof (dst_pos (hR N) (mfun B)).
        assert (dst (hR M) (mfun A) * dst (hR N) (mfun B) <= E * E') by (apply Rmult_le_compat; assumption). lra.
      - unfold dst. apply fnorm_ext. intros i j Hi Hj. rewrite (mul_rot A B i j SB Hi Hj). reflexivity. }
    assert (X2 : dst (hR (m44_mul M N)) (mm (hR M) (hR N)) <= 123 / 10 * uro).
    { unfold dst. eapply Rle_trans; [apply (fnorm_mono _ (fun i j => 401 / 100 * uro * aap (hR M) (fun k => hR N k j) i + 5 * eta))| ].
      - intros i j Hi Hj. destruct (G i j ltac:(lia) ltac:(lia)) as [_ Q].
        assert (S1 : sumn 4 (fun k => B2R (mfun M i k) * B2R (mfun N k j)) = mm (hR M) (hR N) i j).
        { cbn [sumn]. lazy [add zero R_Num]. rewrite (LN j ltac:(lia)). replace (Nat.eqb j 3) with false by (symmetry; apply Nat.eqb_neq; lia). unfold mm, hR. ring. }
        assert (S2 : sumn 4 (fun k => Rabs (B2R (mfun M i k) * B2R (mfun N k j))) = aap (hR M) (fun k => hR N k j) i).
        { cbn [sumn]. lazy [add zero R_Num]. rewrite (LN j ltac:(lia)). replace (Nat.eqb j 3) with false by (symmetry; apply Nat.eqb_neq; lia). rewrite Rmult_0_r, Rabs_R0. unfold aap, hR. ring. }
        rewrite S1, S2 in Q. exact Q.
      - eapply Rle_trans; [apply (fnorm_plus (fun i j => 401 / 100 * uro * aap (hR M) (fun k => hR N k j) i) (fun _ _ => 5 * eta))| ].
        rewrite (fnorm_scal (401 / 100 * uro) (fun i j => aap (hR M) (fun k => hR N k j) i)), Rabs_pos_eq by lra.
        pose proof (fnorm_aap (hR M) (hR N)) as Q. pose proof (fnorm_pos (hR M)) as p1. pose proof (fnorm_pos (hR N)) as p2.
        assert (A2 : fnorm (hR M) * fnorm (hR N) <= 17421 / 10000 * (17421 / 10000)) by (apply Rmult_le_compat; lra).
        assert (A3 : fnorm (fun _ _ => 5 * eta) <= 3 * (5 * eta)) by (apply fnorm_all; [lra|intros; rewrite Rabs_pos_eq by lra; lra]).
        set (z := fnorm (fun i j => aap (hR M) (fun k => hR N k j) i)) in *. assert (z <= 3035 / 1000) by lra.
        assert (401 / 100 * uro * z <= 401 / 100 * uro * (3035 / 1000)) by (apply Rmult_le_compat_l; lra). lra. }
    lra.
  - rewrite closeH_nrm.
    rewrite (nrm_ext 3 _ (fun i => hT (m44_mul M N) i - (ap (mfun A) (tA B) i + tA A i))) by (intros i Hi; unfold tA at 1; rewrite (mul_trans A B i SB Hi); reflexivity).
    pose proof (trans_err E D M A (hT N) (tA B) (hT (m44_mul M N)) D' SA CM1 LE CM2 CN2 D0 D0') as Q. rewrite <- tlen_nrm in Q.
    replace (7 * uro * (tlen A + D + tlen B + D')) with (7 * uro * (tlen A + D + tlen B + D')) by ring. apply Q. clear Q.
    intros i Hi. destruct (G i 3%nat ltac:(lia) ltac:(lia)) as [_ Q].
    assert (S1 : sumn 4 (fun k => B2R (mfun M i k) * B2R (mfun N k 3)) = ap (hR M) (hT N) i + hT M i).
    { cbn [sumn]. lazy [add zero R_Num]. rewrite (LN 3%nat ltac:(lia)). cbn [Nat.eqb]. unfold ap, hR, hT. ring. }
    assert (S2 : sumn 4 (fun k => Rabs (B2R (mfun M i k) * B2R (mfun N k 3))) = aap (hR M) (hT N) i + Rabs (hT M i)).
    { cbn [sumn]. lazy [add zero R_Num]. rewrite (LN 3%nat ltac:(lia)). cbn [Nat.eqb]. rewrite Rmult_1_r. unfold aap, hR, hT. ring. }
    rewrite S1, S2 in Q. exact Q.
Qed.

(** ** a point *)
Lemma c97_apply : forall E D (M : M44 fl) (A : M44 R) (p : V3 fl), SE3 A -> closeH E D M A -> E <= / 100 -> tlen A + D <= bpow radix2 (emax - 10) ->
  (forall i, (i < 3)%nat -> is_finite (vfun p i) = true /\ Rabs (B2R (vfun p i)) <= bpow radix2 (emax - 10)) ->
  let P := [| B2R (vfun p 0); B2R (vfun p 1); B2R (vfun p 2) |] in let x := m44_mul_v M (point p) in let X := m44_mul_v A (point P) in
  (forall i, (i < 4)%nat -> is_finite (vfun x i) = true) /\ B2R (vfun x 3) = 1 /\
  sqrt (sumn 3 (fun i => (B2R (vfun x i) - vfun X i) ^ 2)) <= D + E * sqrt (sumn 3 (fun i => B2R (vfun p i) ^ 2)) + 7 * uro * (tlen A + D + sqrt (sumn 3 (fun i => B2R (vfun p i) ^ 2))) + 9 * eta.
Proof.
  intros E D M A p SA CM LE LA Hpt P x X. destruct (big_b Hp11 He4) as (b & Eb & B1 & BE). rewrite <- Eb in LA, Hpt.
  destruct (closeH_sizes E D M A b SA CM LE LA B1) as (M1 & M2 & _ & _ & NM & _). destruct (closeH_parts _ _ _ _ CM) as (E0 & D0 & CM1 & CM2). destruct CM as (FM & LM & _).
  pose proof (uro_small Hp11) as U. pose proof (uro_pos (prec := prec)) as Pu. assert (T0 : 0 <= eta) by apply eta_pos.
  assert (O1 : B2R (one : fl) = 1) by apply Bone_correct.
  set (h := vR p).
  assert (V : forall k, (k < 3)%nat -> vfun (point p) k = vfun p k) by (intros k Hk; destruct k as [ |[ |[ |k]]]; [reflexivity..|lia]).
  assert (V3 : vfun (point p) 3 = (one : fl)) by reflexivity.
  assert (F : forall i, (i < 4)%nat -> is_finite (vfun x i) = true).
  { intros i Hi. pose proof (M1 i 0%nat Hi ltac:(lia)) as X0. pose proof (M1 i 1%nat Hi ltac:(lia)) as X1. pose proof (M1 i 2%nat Hi ltac:(lia)) as X2. pose proof (M2 i Hi) as X3.
    assert (Lp : forall j, (j < 3)%nat -> ufin (vfun p j) (16 * b, 0%nat)) by (intros j Hj; destruct (Hpt j Hj); apply ufin_leaf; [assumption|lra|lra]).
    pose proof (Lp 0%nat ltac:(lia)) as Y0. pose proof (Lp 1%nat ltac:(lia)) as Y1. pose proof (Lp 2%nat ltac:(lia)) as Y2. pose proof (ufin_one (prec := prec) (emax := emax)) as Y3.
    unfold x. change (m44_mul_v M (point p)) with (d_mul_v D4 M (point p)). rewrite (d_mul_v_dotl D4 M (point p) i Hi). cbn [dimn dotl]. rewrite !V, V3 by lia.
    eapply (ufin_done Hp11 _ _ _ _ (256 * b) 100); [ufin_go|reflexivity|lra|cbn; lra|lra|lra]. }
  split; [exact F|split].
  - pose proof (F 3%nat ltac:(lia)) as F3. unfold x in F3 |- *. pose proof (d_mul_v_dotl D4 M (point p) 3 ltac:(cbn; lia)) as Q. change (d_mul_v D4 M (point p)) with (m44_mul_v M (point p)) in Q. cbn [dimn] in Q.
    rewrite Q in F3. rewrite Q, (last_row_exact _ _ F3 LM), V3. exact O1.
  - assert (Np : sqrt (sumn 3 (fun i => B2R (vfun p i) ^ 2)) = nrm 3 h) by (unfold nrm, sq_sum, h, vR; f_equal; lazy [sumn add mul zero R_Num]; ring).
    rewrite Np. replace (sqrt (sumn 3 (fun i => (B2R (vfun x i) - vfun X i) ^ 2))) with (nrm 3 (fun i => B2R (vfun x i) - vfun X i)) by (unfold nrm, sq_sum; f_equal; lazy [sumn add mul zero R_Num]; ring).
    assert (EX : forall i, (i < 3)%nat -> vfun X i = ap (mfun A) h i + tA A i).
    { intros i Hi. pose proof (d_mul_v_dotl D4 A (point P) i ltac:(cbn; lia)) as Q. change (d_mul_v D4 A (point P)) with X in Q. cbn [dimn dotl] in Q. rewrite Q. clear Q.
      change (vfun (point P) 0) with (h 0%nat). change (vfun (point P) 1) with (h 1%nat). change (vfun (point P) 2) with (h 2%nat). change (vfun (point P) 3) with 1. unfold ap, tA. lazy [add mul R_Num]. ring. }
    rewrite (nrm_ext 3 _ (fun i => B2R (vfun x i) - (ap (mfun A) h i + tA A i))) by (intros i Hi; rewrite (EX i Hi); reflexivity).
    pose proof (trans_err E D M A h h (fun i => B2R (vfun x i)) 0 SA CM1 LE CM2) as Q. cbv beta in Q.
    assert (Z : nrm 3 (fun i => h i - h i) <= 0) by (apply nrm_le; [lra|unfold sq_sum; lazy [sumn add mul zero R_Num]; lra]).
    replace (D + E * nrm 3 h + 7 * uro * (tlen A + D + nrm 3 h) + 9 * eta) with (D + 0 + E * (nrm 3 h + 0) + 7 * uro * (tlen A + D + nrm 3 h + 0) + 9 * eta) by ring.
    apply (Q Z D0 (Rle_refl 0)). clear Q Z. intros i Hi.
    pose proof (c50_mul_v_error D4 M (point p) i ltac:(cbn; lia) (F i ltac:(lia))) as Q. unfold err in Q. change (d_mul_v D4 M (point p)) with x in Q. change (dimn D4) with 4%nat in Q.
    match type of Q with Rabs (_ - ?s) <= _ * ?m + _ => assert (S1 : s = ap (hR M) h i + hT M i); [ |assert (S2 : m = aap (hR M) h i + Rabs (hT M i))] end.
    { transitivity (sumn 4 (fun k => B2R (mfun M i k) * B2R (vfun (point p) k))); [reflexivity| ]. cbn [sumn]. rewrite !V, V3, O1 by lia. lazy [add zero R_Num]. unfold ap, hR, hT, h, vR. ring. }
    { transitivity (sumn 4 (fun k => Rabs (B2R (mfun M i k) * B2R (vfun (point p) k)))); [reflexivity| ]. cbn [sumn]. rewrite !V, V3, O1 by lia. lazy [add zero R_Num]. rewrite Rmult_1_r. unfold aap, hR, hT, h, vR. ring. }
    rewrite S1, S2 in Q. eapply Rle_trans; [exact Q| ]. clear Q S1 S2.
    pose proof (pow_lin Hp11 4 (401 / 100) ltac:(cbn; lra) ltac:(lra)) as P4. pose proof (pow_mono 0 4 ltac:(lia) : _ <= _ <= (1 + uro) ^ 4) as [_ P4']. rewrite pow_O in P4'.
    pose proof (aap_pos (hR M) h i) as A0. pose proof (Rabs_pos (hT M i)) as A1.
    set (pw := (1 + uro) ^ 4) in *. clearbody pw.
    apply Rplus_le_compat; [apply Rmult_le_compat_r; lra| ]. apply Rmult_le_compat_r; [exact T0|cbn [INR]; lra].
Qed.

(** ** a matrix assembled from a rotation and a translation *)
Lemma c97_from_rotation : forall E D (m : M33 fl) (r : M33 R) (t : V3 fl) (T : V3 R), SO3 r -> close3 E m r -> (forall i, (i < 3)%nat -> is_finite (vfun t i) = true) ->
  sqrt (sumn 3 (fun i => (B2R (vfun t i) - vfun T i) ^ 2)) <= D ->
  SE3 (homogeneous_from_rotation r T) /\ closeH E D (homogeneous_from_rotation m t) (homogeneous_from_rotation r T).
Proof.
  intros E D m r t T S [F C] Ft Ct. split; [apply c42_homogeneous_SE3; exact S| ].
  assert (Mr : forall X (m : M33 X) (t : V3 X) (NX : Num X) i j, (i < 3)%nat -> (j < 3)%nat -> mfun (homogeneous_from_rotation m t) i j = mfun m i j).
  { clear. intros X m t NX i j Hi Hj. destruct m as ((r00&r01&r02&[])&(r10&r11&r12&[])&(r20&r21&r22&[])&[]). destruct i as [ |[ |[ |i]]]; [ | | |lia]; (destruct j as [ |[ |[ |j]]]; [reflexivity..|lia]). }
  assert (Mt : forall X (m : M33 X) (t : V3 X) (NX : Num X) i, (i < 3)%nat -> mfun (homogeneous_from_rotation m t) i 3 = vfun t i).
  { clear. intros X m t NX i Hi. destruct t as (c0&c1&c2&[]). destruct i as [ |[ |[ |i]]]; [reflexivity..|lia]. }
  split; [ |split; [ |split]].
  - intros i j Hi Hj. destruct (Nat.eq_dec i 3) as [->|N1].
    + destruct j as [ |[ |[ |[ |j]]]]; [reflexivity..|change (is_finite (Bone : fl) = true); apply is_finite_Bone|lia].
    + destruct (Nat.eq_dec j 3) as [->|N2]; [rewrite Mt by lia; apply Ft; lia|rewrite Mr by lia; apply F; lia].
  - intros j Hj. destruct j as [ |[ |[ |[ |j]]]]; [reflexivity..|apply Bone_correct|lia].
  - erewrite (sumn_ext 3); [exact C| ]. intros i Hi. apply sumn_ext. intros j Hj. rewrite !Mr by lia. reflexivity.
  - erewrite (sumn_ext 3); [exact Ct| ]. intros i Hi. cbv beta. rewrite !Mt by lia. reflexivity.
Qed.

(** ** the inverse *)
Lemma c97_inverse : forall E D (M : M44 fl) (A : M44 R), SE3 A -> closeH E D M A -> E <= / 100 -> tlen A + D <= bpow radix2 (emax - 10) ->
  SE3 (homogeneous_inverse A) /\ tlen (homogeneous_inverse A) = tlen A /\
  closeH E (D + E * (tlen A + D) + 53 / 10 * uro * (tlen A + D) + 7 * eta) (homogeneous_inverse M) (homogeneous_inverse A).
Proof.
  intros E D M A SA CM LE LA. destruct (big_b Hp11 He4) as (b & Eb & B1 & BE). rewrite <- Eb in LA.
  destruct (closeH_sizes E D M A b SA CM LE LA B1) as (M1 & _ & _ & _ & NM & NT). destruct (closeH_parts _ _ _ _ CM) as (E0 & D0 & CM1 & CM2). destruct CM as (FM & LM & _).
  pose proof (uro_small Hp11) as U. pose proof (uro_pos (prec := prec)) as Pu. assert (T0 : 0 <= eta) by apply eta_pos.
  pose proof (SE3_orth A SA) as OA.
  assert (OT : orthR (tr (mfun A))) by (destruct OA as [O1 O2]; split; assumption).
  pose proof (proj2 (proj2 (c42_inverse R_ring A SA))) as SI.
  set (rot := [| [| mfun M 0 0; mfun M 0 1; mfun M 0 2 |]; [| mfun M 1 0; mfun M 1 1; mfun M 1 2 |]; [| mfun M 2 0; mfun M 2 1; mfun M 2 2 |] |] : M33 fl).
  set (t := [| mfun M 0 3; mfun M 1 3; mfun M 2 3 |] : V3 fl).
  assert (EM : homogeneous_inverse M = homogeneous_from_rotation (m33_transpose rot) (m33_mul_v (m33_neg (m33_transpose rot)) t)).
  { unfold rot, t. clear. destruct M as ((m00&m01&m02&m03&[])&(m10&m11&m12&m13&[])&(m20&m21&m22&m23&[])&(m30&m31&m32&m33&[])&[]). reflexivity. }
  assert (ER : forall i j, (i < 3)%nat -> (j < 3)%nat -> mfun rot i j = mfun M i j) by (intros i j Hi Hj; ij i j Hi Hj; reflexivity).
  assert (ET : forall i, (i < 3)%nat -> vfun t i = mfun M i 3) by (intros i Hi; destruct i as [ |[ |[ |i]]]; [reflexivity..|lia]).
  assert (IA : forall i j, (i < 3)%nat -> (j < 3)%nat -> mfun (homogeneous_inverse A) i j = mfun A j i).
  { clear. intros i j Hi Hj. destruct A as ((m00&m01&m02&m03&[])&(m10&m11&m12&m13&[])&(m20&m21&m22&m23&[])&(m30&m31&m32&m33&[])&[]). ij i j Hi Hj; reflexivity. }
  assert (IT : forall i, (i < 3)%nat -> mfun (homogeneous_inverse A) i 3 = - ap (tr (mfun A)) (tA A) i).
  { clear. intros i Hi. destruct A as ((m00&m01&m02&m03&[])&(m10&m11&m12&m13&[])&(m20&m21&m22&m23&[])&(m30&m31&m32&m33&[])&[]).
    destruct i as [ |[ |[ |i]]]; [ | | |lia]; lazy -[Rplus Rmult Ropp Rminus]; ring. }
  split; [exact SI|split].
  { rewrite !tlen_nrm. rewrite (nrm_ext 3 (tA (homogeneous_inverse A)) (fun i => (-1) * ap (tr (mfun A)) (tA A) i)) by (intros i Hi; unfold tA at 1; rewrite (IT i Hi); ring).
    rewrite nrm_scal, (ap_orth (tr (mfun A)) (tA A) OT). rewrite abs_m1. ring. }
  set (y := m33_mul_v (m33_neg (m33_transpose rot)) t) in *.
  assert (Q : forall i, (i < 3)%nat -> is_finite (vfun y i) = true /\ Rabs (B2R (vfun y i) - - ap (tr (hR M)) (hT M) i) <= 301 / 100 * uro * aap (tr (hR M)) (hT M) i + 4 * eta).
  { intros i Hi. assert (H1 : forall i j, (i < 3)%nat -> (j < 3)%nat -> is_finite (mfun (m33_neg (m33_transpose rot)) i j) = true /\ Rabs (mR (m33_neg (m33_transpose rot)) i j) <= 2).
    { intros k j Hk Hj. unfold mR. rewrite mfun_ntr, ER, is_finite_Bopp, B2R_Bopp, Rabs_Ropp by lia. split; [apply FM; lia| ].
      pose proof (orth_entry (mfun A) j k OA Hj Hk) as A1. pose proof (fnorm_entry (fun i j => hR M i j - mfun A i j) j k Hj Hk) as A2. cbv beta in A2. fold (dst (hR M) (mfun A)) in A2.
      change (Rabs (hR M j k) <= 2). replace (hR M j k) with ((hR M j k - mfun A j k) + mfun A j k) by ring. eapply Rle_trans; [apply Rabs_triang|lra]. }
    assert (H2 : vec_le (16 * b) t).
    { intros k Hk. unfold vR. rewrite ET by lia. split; [apply FM; lia| ]. change (Rabs (hT M k) <= 16 * b). eapply Rle_trans; [exact (comp_nrm 3 (hT M) k Hk)|lra]. }
    destruct (linear_err Hp11 He4 _ t b Eb H1 H2 i Hi) as [Q1 Q2]. cbv zeta in Q2. fold y in Q1, Q2. split; [exact Q1| ].
    assert (W1 : ap (mR (m33_neg (m33_transpose rot))) (vR t) i = - ap (tr (hR M)) (hT M) i).
    { unfold ap, mR, vR, tr, hR, hT. rewrite !mfun_ntr, !ER, !ET, !B2R_Bopp by lia. ring. }
    assert (W2 : aap (mR (m33_neg (m33_transpose rot))) (vR t) i = aap (tr (hR M)) (hT M) i).
    { unfold aap, mR, vR, tr, hR, hT. rewrite !mfun_ntr, !ER, !ET, !B2R_Bopp by lia. rewrite <- !Ropp_mult_distr_l, !Rabs_Ropp. reflexivity. }
    rewrite W1, W2 in Q2. exact Q2. }
  clearbody y.
  assert (Mr : forall i j, (i < 3)%nat -> (j < 3)%nat -> mfun (homogeneous_inverse M) i j = mfun M j i).
  { intros i j Hi Hj. rewrite EM, <- (ER j i Hj Hi), <- (mfun_tr rot i j Hi Hj). clear - Hi Hj. generalize (m33_transpose rot). intros m. destruct m as ((r00&r01&r02&[])&(r10&r11&r12&[])&(r20&r21&r22&[])&[]). ij i j Hi Hj; reflexivity. }
  assert (Mt : forall i, (i < 3)%nat -> mfun (homogeneous_inverse M) i 3 = vfun y i).
  { intros i Hi. rewrite EM. clear - Hi. destruct y as (c0&c1&c2&[]). destruct i as [ |[ |[ |i]]]; [reflexivity..|lia]. }
  split; [ |split; [ |split]].
  - intros i j Hi Hj. destruct (Nat.eq_dec i 3) as [->|N1].
    + rewrite EM. destruct j as [ |[ |[ |[ |j]]]]; [reflexivity..|change (is_finite (Bone : fl) = true); apply is_finite_Bone|lia].
    + destruct (Nat.eq_dec j 3) as [->|N2]; [rewrite Mt by lia; apply Q; lia|rewrite Mr by lia; apply FM; lia].
  - intros j Hj. rewrite EM. destruct j as [ |[ |[ |[ |j]]]]; [reflexivity..|apply Bone_correct|lia].
  - rewrite closeH_dst. eapply Rle_trans; [ |exact CM1]. apply Req_le.
    transitivity (fnorm (fun i j => hR M j i - mfun A j i)).
    + apply fnorm_ext. intros i j Hi Hj. unfold hR. rewrite Mr, IA by assumption. reflexivity.
    + unfold dst, fnorm, nrm, sq_sum. f_equal. lazy [sumn add mul zero R_Num Nat.div Nat.modulo Nat.divmod fst snd Nat.sub]. ring.
  - rewrite closeH_nrm.
    rewrite (nrm_ext 3 _ (fun i => (B2R (vfun y i) - - ap (tr (hR M)) (hT M) i) + ((-1) * ap (tr (hR M)) (fun k => hT M k - tA A k) i + (-1) * ap (fun i j => hR M j i - mfun A j i) (tA A) i))).
    2:{ intros i Hi. unfold hT at 1, tA at 1. rewrite Mt, IT by exact Hi. unfold ap, tr. ring. }
    eapply Rle_trans; [apply (nrm_plus 3 (fun i => B2R (vfun y i) - - ap (tr (hR M)) (hT M) i))| ].
    pose proof (err_nrm (fun i => B2R (vfun y i) - - ap (tr (hR M)) (hT M) i) (tr (hR M)) (hT M) (301 / 100 * uro) (4 * eta)) as Z1.
    assert (ds : dst (tr (hR M)) (tr (mfun A)) = dst (hR M) (mfun A)) by (unfold dst, fnorm, nrm, sq_sum, tr; f_equal; lazy [sumn add mul zero R_Num Nat.div Nat.modulo Nat.divmod fst snd Nat.sub]; ring).
    assert (fr : fro2 (tr (hR M)) <= 175 / 100 * (175 / 100)).
    { rewrite fro2_tr, <- fnorm_fro. pose proof (fnorm_pos (hR M)). apply Rmult_le_compat; lra. }
    specialize (Z1 fr ltac:(lra) ltac:(lra) (fun i Hi => proj2 (Q i Hi))).
    pose proof (nrm_plus 3 (fun i => (-1) * ap (tr (hR M)) (fun k => hT M k - tA A k) i) (fun i => (-1) * ap (fun i j => hR M j i - mfun A j i) (tA A) i)) as Z2. cbv beta in Z2.
    rewrite (nrm_scal 3 (-1) (ap (tr (hR M)) (fun k => hT M k - tA A k))), (nrm_scal 3 (-1) (ap (fun i j => hR M j i - mfun A j i) (tA A))), abs_m1, !Rmult_1_l in Z2.
    pose proof (ap_near (tr (hR M)) (tr (mfun A)) (fun k => hT M k - tA A k) OT) as Z3. rewrite ds in Z3.
    pose proof (ap_fnorm (fun i j => hR M j i - mfun A j i) (tA A)) as Z4. change (fnorm (fun i j => hR M j i - mfun A j i)) with (dst (tr (hR M)) (tr (mfun A))) in Z4. rewrite ds, <- tlen_nrm in Z4.
    pose proof (nrm_pos 3 (tA A)) as v0. rewrite <- tlen_nrm in v0. pose proof (nrm_pos 3 (fun k => hT M k - tA A k)) as w0. pose proof (dst_pos (hR M) (mfun A)) as d0.
    assert (dst (hR M) (mfun A) * tlen A <= E * tlen A) by (apply Rmult_le_compat_r; lra).
    assert ((1 + dst (hR M) (mfun A)) * nrm 3 (fun k => hT M k - tA A k) <= (1 + E) * D) by (apply Rmult_le_compat; lra).
    assert (uro * nrm 3 (hT M) <= uro * (tlen A + D)) by (apply Rmult_le_compat_l; lra).
    assert (0 <= uro * (tlen A + D)) by (apply Rmult_le_pos; lra). lra.
Qed.

(** ** a chain *)
Lemma tlen_mul (A B : M44 R) : SE3 A -> SE3 B -> tlen (m44_mul A B) <= tlen A + tlen B.
Proof.
  intros SA SB. rewrite !tlen_nrm. rewrite (nrm_ext 3 (tA (m44_mul A B)) (fun i => ap (mfun A) (tA B) i + tA A i)) by (intros i Hi; unfold tA at 1; rewrite (mul_trans A B i SB Hi); reflexivity).
  eapply Rle_trans; [apply nrm_plus| ]. rewrite (ap_orth _ (tA B) (SE3_orth A SA)). lra.
Qed.
Lemma tlen_pos A : 0 <= tlen A.
Proof. apply sqrt_pos. Qed.

Lemma c97_chain : forall E D L (Ms : list (M44 fl)) (As : list (M44 R)) (M : M44 fl) (A : M44 R), SE3 A -> closeH E D M A -> tlen A <= L ->
  Forall2 (fun M A => SE3 A /\ closeH E D M A /\ tlen A <= L) Ms As ->
  let n := INR (length Ms) in
  (n + 1) * (102 / 100 * E + 123 / 10 * uro) <= / 100 -> (n + 1) * (101 / 100 * L + 103 / 100 * D + 10 * eta) <= bpow radix2 (emax - 10) ->
  SE3 (fold_left m44_mul As A) /\ tlen (fold_left m44_mul As A) <= (n + 1) * L /\
  closeH (E + n * (101 / 100 * E + 123 / 10 * uro)) ((n + 1) * (103 / 100 * D + 10 * eta) + (n + 1) ^ 2 * (E + 10 * uro) * L) (fold_left m44_mul Ms M) (fold_left m44_mul As A).
Proof.
  intros E D L Ms As M A SA CM TA H n LE LB.
  pose proof (uro_small Hp11) as U. pose proof (uro_pos (prec := prec)) as Pu. assert (T0 : 0 <= eta) by apply eta_pos.
  destruct (closeH_parts _ _ _ _ CM) as (E0 & D0 & _). pose proof (tlen_pos A) as L0. assert (LL : 0 <= L) by lra. clear L0.
  assert (G : forall Ms As (M : M44 fl) (A : M44 R) k, 1 <= k -> k + INR (length Ms) <= n + 1 -> SE3 A -> tlen A <= k * L ->
    closeH (E + (k - 1) * (101 / 100 * E + 123 / 10 * uro)) (k * (103 / 100 * D + 10 * eta) + k ^ 2 * (E + 10 * uro) * L) M A ->
    Forall2 (fun M A => SE3 A /\ closeH E D M A /\ tlen A <= L) Ms As ->
    SE3 (fold_left m44_mul As A) /\ tlen (fold_left m44_mul As A) <= (k + INR (length Ms)) * L /\
    closeH (E + (k + INR (length Ms) - 1) * (101 / 100 * E + 123 / 10 * uro)) ((k + INR (length Ms)) * (103 / 100 * D + 10 * eta) + (k + INR (length Ms)) ^ 2 * (E + 10 * uro) * L) (fold_left m44_mul Ms M) (fold_left m44_mul As A)).
  { clearbody n. clear CM TA H SA Ms As M A. intros Ms. induction Ms as [ |N Ms IH]; intros As M A k K1 Kn SA TA CM H.
    - inversion H; subst. cbn [fold_left length INR]. rewrite Rplus_0_r. split; [exact SA|split; [exact TA|exact CM]].
    - inversion H as [ |N' B Ms' As' (SB & CN & TB) H' X1 X2]; subst. cbn [fold_left].
      assert (EK : INR (length (N :: Ms)) = 1 + INR (length Ms)) by (cbn [length]; rewrite S_INR; ring). rewrite EK in *.
      replace (k + (1 + INR (length Ms))) with (k + 1 + INR (length Ms)) in * by ring.
      pose proof (pos_INR (length Ms)) as p0.
      assert (C1 : (k + 1) * (102 / 100 * E + 123 / 10 * uro) <= / 100).
      { eapply Rle_trans; [ |exact LE]. apply Rmult_le_compat_r; lra. }
      assert (C2 : (k + 1) * (101 / 100 * L + 103 / 100 * D + 10 * eta) <= bpow radix2 (emax - 10)).
      { eapply Rle_trans; [ |exact LB]. apply Rmult_le_compat_r; lra. }
      assert (ke : 0 <= k * E) by (apply Rmult_le_pos; lra). assert (ku : 0 <= k * uro) by (apply Rmult_le_pos; lra). assert (ku' : 1 * uro <= k * uro) by (apply Rmult_le_compat_r; lra).
      assert (kl : 0 <= k * L) by (apply Rmult_le_pos; lra). assert (kd : 0 <= k * D) by (apply Rmult_le_pos; lra). assert (kt : 0 <= k * eta) by (apply Rmult_le_pos; lra).
      set (ek := E + (k - 1) * (101 / 100 * E + 123 / 10 * uro)) in *. set (dk := k * (103 / 100 * D + 10 * eta) + k ^ 2 * (E + 10 * uro) * L) in *.
      assert (Lek : ek <= / 100) by (unfold ek; lra).
      assert (ek0 : 0 <= ek) by (unfold ek; assert (0 <= (k - 1) * (101 / 100 * E + 123 / 10 * uro)) by (apply Rmult_le_pos; lra); lra).
      assert (q : k ^ 2 * (E + 10 * uro) * L <= / 100 * (k * L)).
      { replace (k ^ 2 * (E + 10 * uro) * L) with (k * (E + 10 * uro) * (k * L)) by ring. apply Rmult_le_compat_r; lra. }
      assert (q0 : 0 <= k ^ 2 * (E + 10 * uro) * L) by (apply Rmult_le_pos; [apply Rmult_le_pos; [apply pow2_ge_0|lra]|lra]).
      destruct (closeH_parts _ _ _ _ CM) as (_ & dk0 & _).
      pose proof (c97_compose M N A B ek dk E D SA SB CM CN Lek ltac:(lra) ltac:(unfold dk; lra) ltac:(lra)) as C.
      specialize (IH As' (m44_mul M N) (m44_mul A B) (k + 1) ltac:(lra) ltac:(lra) (c42_SE3_mul R_ring A B SA SB)).
      assert (T1 : tlen (m44_mul A B) <= (k + 1) * L) by (pose proof (tlen_mul A B SA SB); lra).
      apply (IH T1); [ |exact H'].
      pose proof (tlen_pos A) as a0. pose proof (tlen_pos B) as b0.
      eapply closeH_weaken; [exact C| | ].
      + assert (ek * E <= / 100 * E) by (apply Rmult_le_compat_r; lra). unfold ek. unfold ek in *. lra.
      + assert (w1 : ek * (tlen B + D) <= ek * (L + D)) by (apply Rmult_le_compat_l; lra).
        assert (w2 : 7 * uro * (tlen A + dk + tlen B + D) <= 7 * uro * ((k + 1) * L + dk + D)) by (apply Rmult_le_compat_l; lra).
        assert (w3 : ek * D <= / 100 * D) by (apply Rmult_le_compat_r; lra).
        assert (w4 : ek * L <= (k * (101 / 100 * E + 123 / 10 * uro) - 123 / 10 * uro) * L) by (apply Rmult_le_compat_r; [lra|unfold ek; lra]).
        assert (ul : 0 <= uro * L) by (apply Rmult_le_pos; lra). assert (el : 0 <= E * L) by (apply Rmult_le_pos; lra). assert (ud : uro * D <= / 2400 * D) by (apply Rmult_le_compat_r; lra).
        assert (kel : 0 <= k * E * L) by (apply Rmult_le_pos; lra). assert (kul : 0 <= k * uro * L) by (apply Rmult_le_pos; lra).
        assert (w5 : uro * (k * (103 / 100 * D + 10 * eta)) <= / 1230 * (103 / 100 * D + 10 * eta)).
        { rewrite <- Rmult_assoc. apply Rmult_le_compat_r; lra. }
        assert (w6 : uro * (k ^ 2 * (E + 10 * uro) * L) <= / 1230 * (k * (E + 10 * uro) * L)).
        { replace (uro * (k ^ 2 * (E + 10 * uro) * L)) with (k * uro * (k * (E + 10 * uro) * L)) by ring. apply Rmult_le_compat_r; lra. }
        replace ((k + 1) ^ 2 * (E + 10 * uro) * L) with (k ^ 2 * (E + 10 * uro) * L + 2 * (k * E * L) + 20 * (k * uro * L) + E * L + 10 * (uro * L)) by ring.
        unfold dk in w2 |- *. clear IH C CM CN H H' LE LB q. 
        replace (7 * uro * ((k + 1) * L + (k * (103 / 100 * D + 10 * eta) + k ^ 2 * (E + 10 * uro) * L) + D)) with (7 * (k * uro * L) + 7 * (uro * L) + 7 * (uro * (k * (103 / 100 * D + 10 * eta))) + 7 * (uro * (k ^ 2 * (E + 10 * uro) * L)) + 7 * (uro * D)) in w2 by ring.
        replace ((k * (101 / 100 * E + 123 / 10 * uro) - 123 / 10 * uro) * L) with (101 / 100 * (k * E * L) + 123 / 10 * (k * uro * L) - 123 / 10 * (uro * L)) in w4 by ring.
        replace (k * (E + 10 * uro) * L) with (k * E * L + 10 * (k * uro * L)) in w6 by ring.
        lra. }
  assert (n0 : 0 <= n) by apply pos_INR.
  specialize (G Ms As M A 1 ltac:(lra) ltac:(fold n; lra) SA ltac:(lra)). fold n in G. replace (1 + n) with (n + 1) in G by ring. replace (n + 1 - 1) with n in G by ring.
  apply G; [ |exact H]. eapply closeH_weaken; [exact CM|lra| ]. assert (0 <= 1 ^ 2 * (E + 10 * uro) * L) by (apply Rmult_le_pos; [apply Rmult_le_pos; [apply pow2_ge_0|lra]|lra]). lra.
Qed.

(** ** through dual quaternions *)
Lemma quat_close3 E (a : Quaternion fl) (A : Quaternion R) : unit_quat A -> close4 E a A -> E <= / 220 -> close3 (603 / 100 * E + 123 / 10 * uro) (q_to_rotation a) (q_to_rotation A).
Proof.
  intros UA C L. pose proof (uro_pos (prec := prec)) as P. destruct (c96_quaternion_matrix Hp11 He4 E a A UA C L) as [_ H].
  assert (E0 : 0 <= E) by (destruct C as [_ C]; eapply Rle_trans; [apply sqrt_pos|exact C]).
  split; [intros i j Hi Hj; apply (H i j Hi Hj)| ]. rewrite close_dst. unfold dst.
  eapply Rle_trans; [apply (fnorm_all _ (201 / 100 * E + 41 / 10 * uro)); [lra|intros i j Hi Hj; apply (H i j Hi Hj)]|lra].
Qed.

Lemma c97_dual_quaternion : forall E rot (t : V3 fl) D (A : Quaternion R), dq_new_from_rot_trans rot t = Ok D -> unit_quat A -> close4 E (dq_real D) A -> E <= / 220 ->
  (forall i, (i < 3)%nat -> is_finite (vfun t i) = true /\ Rabs (B2R (vfun t i)) <= bpow radix2 (emax - 12)) ->
  let T := [| B2R (vfun t 0); B2R (vfun t 1); B2R (vfun t 2) |] in let H := homogeneous_from_rotation (q_to_rotation A) T in
  SE3 H /\ closeH (603 / 100 * E + 123 / 10 * uro) ((201 / 100 * E + 17 * uro) * tlen H + 35 * eta) (dq_to_homogeneous D) H.
Proof.
  intros E rot t D A ED UA C L Ht T H. destruct (c96_quaternion_matrix Hp11 He4 E (dq_real D) A UA C L) as [N _].
  destruct (c94_translation Hp11 He4 E rot t D ED N L Ht) as [G1 G2].
  apply c97_from_rotation; [apply (c27_to_rotation_SO3 R_ring A UA)|apply quat_close3; assumption|exact G1| ].
  assert (E1 : tlen H = nrm 3 (fun i => B2R (vfun t i))) by (unfold tlen, nrm, sq_sum; f_equal; change (mfun H 0 3) with (B2R (vfun t 0)); change (mfun H 1 3) with (B2R (vfun t 1)); change (mfun H 2 3) with (B2R (vfun t 2)); lazy [sumn add mul zero R_Num]; ring).
  rewrite E1. eapply Rle_trans; [ |exact G2]. apply Req_le. unfold nrm, sq_sum. f_equal. cbn [sumn].
  change (vfun T 0) with (B2R (vfun t 0)). change (vfun T 1) with (B2R (vfun t 1)). change (vfun T 2) with (B2R (vfun t 2)). lazy [add mul zero R_Num]. ring.
Qed.

Lemma c97_round_trip : forall E D (M : M44 fl) (A : M44 R), SE3 A -> closeH E D M A -> 188 / 10 * E + 82 * uro <= / 220 -> tlen A + D <= bpow radix2 (emax - 12) ->
  exists Q, dq_new_from_homogeneous M = Ok Q /\
  closeH (114 * E + 507 * uro) (D + 36 * uro * (tlen A + D) + 35 * eta) (dq_to_homogeneous Q) A.
Proof.
  intros E D M A SA CM LE LA. pose proof (uro_small Hp11) as U. pose proof (uro_pos (prec := prec)) as P. assert (T0 : 0 <= eta) by apply eta_pos.
  destruct (closeH_parts _ _ _ _ CM) as (E0 & D0 & C1 & C2).
  destruct (big_b Hp11 He4) as (b & Eb & B1 & BE). assert (Lb : bpow radix2 (emax - 12) <= b) by (rewrite Eb; apply bpow_le; lia).
  destruct (closeH_sizes E D M A b SA CM ltac:(lra) ltac:(lra) B1) as (_ & _ & _ & _ & _ & NT).
  destruct CM as (FM & LM & _).
  assert (ER : forall i j, (i < 3)%nat -> (j < 3)%nat -> mfun (rot_of A) i j = mfun A i j) by (intros i j Hi Hj; ij i j Hi Hj; reflexivity).
  destruct (c95_new_from_homogeneous Hp11 He4 M (rot_of A) E (proj1 SA) ltac:(lra)) as (Q & q & EQ & Uq & Rq & Nq & Cq & Ft & Ct).
  - intros i j Hi Hj. split; [apply FM; lia| ]. rewrite ER by assumption. pose proof (fnorm_entry (fun i j => hR M i j - mfun A i j) i j Hi Hj) as X. cbv beta in X. fold (dst (hR M) (mfun A)) in X. unfold hR at 1 in X. lra.
  - intros i Hi. split; [apply FM; lia| ]. pose proof (comp_nrm 3 (hT M) i Hi) as X. unfold hT at 1 in X. lra.
  - exists Q. split; [exact EQ| ].
    assert (C4 : close4 (188 / 10 * E + 82 * uro) (dq_real Q) q).
    { split; [apply Nq| ]. rewrite close4_nrm. eapply Rle_trans; [apply (nrm_bound 4 _ (94 / 10 * E + 41 * uro)); [lra|intros k Hk; apply Cq, Hk]| ].
      replace (INR 4) with (2 * 2) by (cbn; lra). rewrite sqrt_square by lra. lra. }
    pose proof (quat_close3 _ (dq_real Q) q Uq C4 LE) as K. rewrite Rq in K.
    destruct (c97_from_rotation _ (D + 36 * uro * (tlen A + D) + 35 * eta) _ _ (dq_get_translation Q) (trans_of A) (proj1 SA) K Ft) as [_ G].
    + replace (sqrt (sumn 3 (fun i => (B2R (vfun (dq_get_translation Q) i) - vfun (trans_of A) i) ^ 2))) with (nrm 3 (fun i => (B2R (vfun (dq_get_translation Q) i) - hT M i) + (hT M i - tA A i))).
      * eapply Rle_trans; [apply (nrm_plus 3 (fun i => B2R (vfun (dq_get_translation Q) i) - hT M i))| ].
        change (nrm 3 (fun i => B2R (mfun M i 3))) with (nrm 3 (hT M)) in Ct. change (nrm 3 (fun i => B2R (vfun (dq_get_translation Q) i) - B2R (mfun M i 3))) with (nrm 3 (fun i => B2R (vfun (dq_get_translation Q) i) - hT M i)) in Ct.
        assert (36 * uro * nrm 3 (hT M) <= 36 * uro * (tlen A + D)) by (apply Rmult_le_compat_l; lra). lra.
      * unfold nrm, sq_sum. f_equal. cbn [sumn]. change (vfun (trans_of A) 0) with (tA A 0). change (vfun (trans_of A) 1) with (tA A 1). change (vfun (trans_of A) 2) with (tA A 2). lazy [add mul zero R_Num]. ring.
    + rewrite (SE3_form A SA). eapply closeH_weaken; [exact G|lra|apply Rle_refl].
Qed.
End F.

(** ** binary64, with correctly rounded trigonometric functions *)
#[local] Instance prec53 : Prec_gt_0 53 := eq_refl.
#[local] Instance emax1024 : Prec_lt_emax 53 1024 := eq_refl.
#[local] Notation f64 := (binary_float 53 1024).
#[local] Existing Instance crO.

(** a joint of an arm: a turn about z, then a link of length 1 *)
Definition joint (z : Z) : M44 f64 := homogeneous_from_rotation (rotz (fofZ z)) [| fofZ 1; zero; zero |].
Definition joint_exact (z : Z) : M44 R := homogeneous_from_rotation (rodrigues ez (IZR z)) [| 1; 0; 0 |].

Lemma joint_close z : (Z.abs z <= 2 ^ 53)%Z -> SE3 (joint_exact z) /\ closeH (22 / 10 * FloatFacts.uro (prec := 53)) 0 (joint z) (joint_exact z) /\ tlen (joint_exact z) <= 1.
Proof.
  intros Hz. destruct (fofZ_int (prec := 53) (emax := 1024) z Hz) as [_ Vz]. destruct (fofZ_int (prec := 53) (emax := 1024) 1 ltac:(cbn; lia)) as [F1 V1].
  destruct (c96_elementary (prec := 53) (emax := 1024) _ (fofZ z : f64) (crO_trig _)) as (_ & _ & C). destruct (axis_SO3 (B2R (fofZ z : f64))) as (_ & _ & S). rewrite Vz in C, S.
  assert (T1 : tlen (joint_exact z) <= 1).
  { unfold tlen. change (mfun (joint_exact z) 0 3) with 1. change (mfun (joint_exact z) 1 3) with 0. change (mfun (joint_exact z) 2 3) with 0. replace (1 ^ 2 + 0 ^ 2 + 0 ^ 2) with 1 by ring. rewrite sqrt_1. lra. }
  destruct (c97_from_rotation (prec := 53) (emax := 1024) (2 * (11 / 10 * FloatFacts.uro (prec := 53))) 0 (rotz (fofZ z)) (rodrigues ez (IZR z)) [| fofZ 1; zero; zero |] [| 1; 0; 0 |] S C) as [S1 C1].
  - intros i Hi. destruct i as [ |[ |[ |i]]]; [exact F1|reflexivity..|lia].
  - cbn [sumn]. change (vfun ([| fofZ 1; zero; zero |] : V3 f64) 0) with (fofZ 1 : f64). change (vfun ([| fofZ 1; zero; zero |] : V3 f64) 1) with (zero : f64). change (vfun ([| fofZ 1; zero; zero |] : V3 f64) 2) with (zero : f64).
    change (vfun [| 1; 0; 0 |] 0) with 1. change (vfun [| 1; 0; 0 |] 1) with 0. change (vfun [| 1; 0; 0 |] 2) with 0. change (B2R (zero : f64)) with 0. rewrite V1. lazy [add zero R_Num].
    replace (0 + (1 - 1) ^ 2 + (0 - 0) ^ 2 + (0 - 0) ^ 2) with 0 by ring. rewrite sqrt_0. lra.
  - split; [exact S1|split; [ |exact T1]]. eapply closeH_weaken; [exact C1|lra|lra].
Qed.


Lemma bigs : 1000000 <= bpow radix2 (1024 - 12) /\ 1000000 <= bpow radix2 (1024 - 10).
Proof. split; (apply Rle_trans with (bpow radix2 20); [cbn; lra|apply bpow_le; lia]). Qed.

(** three joints *)
Example C97_case_chain : let M := fold_left m44_mul (joint 2 :: joint 3 :: nil) (joint 1) in let A := fold_left m44_mul (joint_exact 2 :: joint_exact 3 :: nil) (joint_exact 1) in
  SE3 A /\ closeH (/ 10 ^ 13) (/ 10 ^ 12) M A /\ tlen A <= 3.
Proof.
  cbv zeta. pose proof uro53 as U. pose proof (uro_pos (prec := 53)) as P. pose proof (eta_tiny (prec := 53) (emax := 1024) ltac:(lia) ltac:(lia)) as T. assert (T0 : 0 <= FloatFacts.eta (prec := 53) (emax := 1024)) by apply eta_pos.
  destruct (joint_close 1 ltac:(cbn; lia)) as (S1 & C1 & L1). pose proof (joint_close 2 ltac:(cbn; lia)) as J2. pose proof (joint_close 3 ltac:(cbn; lia)) as J3.
  destruct (c97_chain (prec := 53) (emax := 1024) ltac:(lia) ltac:(lia) _ 0 1 (joint 2 :: joint 3 :: nil) (joint_exact 2 :: joint_exact 3 :: nil) (joint 1) (joint_exact 1) S1 C1 L1) as (SA & LA & CA).
  - constructor; [exact J2|constructor; [exact J3|constructor]].
  - cbn [length INR]. lra.
  - eapply Rle_trans; [ |exact (proj2 bigs)]. cbn [length INR]. lra.
  - split; [exact SA|split]. 
    + eapply closeH_weaken; [exact CA|cbn [length INR]; lra|cbn [length INR]; lra].
    + eapply Rle_trans; [exact LA| ]. cbn [length INR]. lra.
Qed.

(** where a motion puts the point (1, 2, 3) *)
Example C97_case_point : forall (M : M44 f64) A, SE3 A -> closeH (/ 10 ^ 13) (/ 10 ^ 12) M A -> tlen A <= 3 ->
  forall i, (i < 3)%nat -> Rabs (B2R (vfun (m44_mul_v M (point ([| fofZ 1; fofZ 2; fofZ 3 |] : V3 f64))) i) - vfun (m44_mul_v A (point [| 1; 2; 3 |])) i) <= / 10 ^ 11.
Proof.
  intros M A SA C LA. pose proof uro53 as U. pose proof (uro_pos (prec := 53)) as P. pose proof (eta_tiny (prec := 53) (emax := 1024) ltac:(lia) ltac:(lia)) as T. assert (T0 : 0 <= FloatFacts.eta (prec := 53) (emax := 1024)) by apply eta_pos.
  assert (LA' : tlen A + / 10 ^ 12 <= 1000000) by lra.
  assert (V : forall z, (Z.abs z <= 2 ^ 53)%Z -> is_finite (fofZ z : f64) = true /\ B2R (fofZ z : f64) = IZR z) by (intros z Hz; apply (fofZ_int (prec := 53) (emax := 1024) z Hz)).
  destruct (V 1%Z ltac:(cbn; lia)) as [F1 W1], (V 2%Z ltac:(cbn; lia)) as [F2 W2], (V 3%Z ltac:(cbn; lia)) as [F3 W3].
  generalize dependent (fofZ 1 : f64). generalize dependent (fofZ 2 : f64). generalize dependent (fofZ 3 : f64). intros x3 F3 W3 x2 F2 W2 x1 F1 W1. clear V.
  destruct (c97_apply (prec := 53) (emax := 1024) ltac:(lia) ltac:(lia) _ _ M A [| x1; x2; x3 |] SA C ltac:(lra) (Rle_trans _ _ _ LA' (proj2 bigs))) as (_ & _ & G).
  { intros i Hi. destruct i as [ |[ |[ |i]]]; [split; [exact F1| ]|split; [exact F2| ]|split; [exact F3| ]|lia]; (eapply Rle_trans; [ |exact (proj2 bigs)]);
    [change (Rabs (B2R x1) <= 1000000); rewrite W1|change (Rabs (B2R x2) <= 1000000); rewrite W2|change (Rabs (B2R x3) <= 1000000); rewrite W3]; rewrite Rabs_pos_eq; lra. }
  set (p := [| x1; x2; x3 |] : V3 f64) in *.
  change (vfun p 0) with x1 in G. change (vfun p 1) with x2 in G. change (vfun p 2) with x3 in G. rewrite W1, W2, W3 in G.
  assert (Np : sqrt (sumn 3 (fun i => B2R (vfun p i) ^ 2)) <= 4).
  { cbn [sumn]. change (vfun p 0) with x1. change (vfun p 1) with x2. change (vfun p 2) with x3. rewrite W1, W2, W3. lazy [add zero R_Num]. rewrite <- (sqrt_square 4) by lra. apply sqrt_le_1_alt. lra. }
  intros i Hi. set (X := m44_mul_v A _) in *. set (x := m44_mul_v M _) in *. clearbody X x.
  pose proof (comp_nrm 3 (fun i => B2R (vfun x i) - vfun X i) i Hi) as K. cbv beta in K. replace (nrm 3 (fun i => B2R (vfun x i) - vfun X i)) with (sqrt (sumn 3 (fun i => (B2R (vfun x i) - vfun X i) ^ 2))) in K by (unfold nrm, sq_sum; f_equal; lazy [sumn add mul zero R_Num]; ring).
  eapply Rle_trans; [exact K|eapply Rle_trans; [exact G| ]]. clear K G. generalize dependent (sqrt (sumn 3 (fun i => B2R (vfun p i) ^ 2))). intros n Np.
  pose proof (tlen_pos A) as a0. set (u := FloatFacts.uro (prec := 53)) in *. assert (u * (tlen A + / 10 ^ 12 + n) <= u * 8) by (apply Rmult_le_compat_l; lra). lra.
Qed.

(** back again, and through a dual quaternion *)
Example C97_case_back : forall (M : M44 f64) A, SE3 A -> closeH (/ 10 ^ 13) (/ 10 ^ 12) M A -> tlen A <= 3 ->
  closeH (/ 10 ^ 13) (/ 10 ^ 11) (homogeneous_inverse M) (homogeneous_inverse A) /\
  exists Q, dq_new_from_homogeneous M = Ok Q /\ closeH (/ 10 ^ 10) (/ 10 ^ 11) (dq_to_homogeneous Q) A.
Proof.
  intros M A SA C LA. pose proof uro53 as U. pose proof (uro_pos (prec := 53)) as P. pose proof (eta_tiny (prec := 53) (emax := 1024) ltac:(lia) ltac:(lia)) as T. assert (T0 : 0 <= FloatFacts.eta (prec := 53) (emax := 1024)) by apply eta_pos.
  assert (LA' : tlen A + / 10 ^ 12 <= 1000000) by lra. pose proof (tlen_pos A) as a0.
  assert (FloatFacts.uro (prec := 53) * (tlen A + / 10 ^ 12) <= FloatFacts.uro (prec := 53) * 4) by (apply Rmult_le_compat_l; lra). split.
  - destruct (c97_inverse (prec := 53) (emax := 1024) ltac:(lia) ltac:(lia) _ _ M A SA C ltac:(lra) (Rle_trans _ _ _ LA' (proj2 bigs))) as (_ & _ & G). eapply closeH_weaken; [exact G|lra|lra].
  - destruct (c97_round_trip (prec := 53) (emax := 1024) ltac:(lia) ltac:(lia) _ _ M A SA C ltac:(lra) (Rle_trans _ _ _ LA' (proj1 bigs))) as (Q & EQ & G). exists Q. split; [exact EQ| ]. eapply closeH_weaken; [exact G|lra|lra].
Qed.

(** the dual quaternion of one radian about (1, 2, 2) and the step (1, 0, 0) *)
Example C97_case_dual : let v := [| fofZ 1; fofZ 2; fofZ 2 |] : V3 f64 in let t := [| fofZ 1; zero; zero |] : V3 f64 in
  exists q D, q_rotation (fofZ 1 : f64) v = Ok q /\ dq_new_from_rot_trans q t = Ok D /\
  closeH (/ 10 ^ 13) (/ 10 ^ 13) (dq_to_homogeneous D) (homogeneous_from_rotation (rodrigues (dir3 v) 1) [| 1; 0; 0 |]).
Proof.
  intros v t. pose proof uro53 as U. pose proof (uro_pos (prec := 53)) as P. pose proof (eta_tiny (prec := 53) (emax := 1024) ltac:(lia) ltac:(lia)) as T. assert (T0 : 0 <= FloatFacts.eta (prec := 53) (emax := 1024)) by apply eta_pos.
  destruct (v122_ok crO) as (Nv & Lv & Nz). fold v in Nv, Lv, Nz. destruct (fofZ_int (prec := 53) (emax := 1024) 1 ltac:(cbn; lia)) as [F1 W1].
  destruct (c96_rotation (prec := 53) (emax := 1024) ltac:(lia) ltac:(lia) _ (fofZ 1 : f64) v F1 Nv (crO_trig _) ltac:(lra)) as (q & A & Eq & Fq & UA & EA & CA). rewrite W1 in EA.
  set (E := 142 / 100 * _ + _) in CA. assert (LE : E <= 8 * FloatFacts.uro (prec := 53)) by (unfold E; lra). assert (E0 : 0 <= E) by (unfold E; lra). clearbody E.
  assert (ED : exists D, dq_new_from_rot_trans q t = Ok D /\ dq_real D = q).
  { unfold dq_new_from_rot_trans, q_normalize. cbv zeta. rewrite Fq. cbn [unwrap bind]. eexists. split; reflexivity. }
  destruct ED as (D & ED & RD). exists q, D. split; [exact Eq|split; [exact ED| ]]. rewrite <- RD in CA.
  assert (Ht : forall i, (i < 3)%nat -> is_finite (vfun t i) = true /\ Rabs (B2R (vfun t i)) <= bpow radix2 (1024 - 12)).
  { clear - F1 W1. revert F1 W1. subst t. generalize (fofZ 1 : f64). intros x1 F1 W1 i Hi. destruct i as [ |[ |[ |i]]]; [split; [exact F1| ]|split; [reflexivity| ]|split; [reflexivity| ]|lia]; (eapply Rle_trans; [ |exact (proj1 bigs)]);
    [change (Rabs (B2R x1) <= 1000000); rewrite W1, Rabs_R1; lra|change (Rabs 0 <= 1000000); rewrite Rabs_R0; lra..]. }
  destruct (c97_dual_quaternion (prec := 53) (emax := 1024) ltac:(lia) ltac:(lia) E q t D A ED UA CA ltac:(lra) Ht) as [_ G].
  change (vfun t 0) with (fofZ 1 : f64) in G. change (B2R (vfun t 1)) with 0 in G. change (B2R (vfun t 2)) with 0 in G. rewrite W1, EA in G. cbv zeta in G.
  set (H := homogeneous_from_rotation _ _) in G |- *. assert (TL : tlen H <= 1).
  { unfold tlen. change (mfun H 0 3) with 1. change (mfun H 1 3) with 0. change (mfun H 2 3) with 0. replace (1 ^ 2 + 0 ^ 2 + 0 ^ 2) with 1 by ring. rewrite sqrt_1. lra. }
  pose proof (tlen_pos H) as h0. assert ((201 / 100 * E + 17 * FloatFacts.uro (prec := 53)) * tlen H <= (201 / 100 * E + 17 * FloatFacts.uro (prec := 53)) * 1) by (apply Rmult_le_compat_l; lra).
  eapply closeH_weaken; [exact G|lra|lra].
Qed.
