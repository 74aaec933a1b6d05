(** * ProofsFloatRigid: homogeneous transformations on floats (C92) *)

From Coq Require Import List Arith ZArith Reals Bool Lra Lia.
From Flocq Require Import Core Relative Sterbenz IEEE754.BinarySingleNaN.
From Verif Require Import Base Scalar Vec Mat2 Mat3 Mat4 Mat5 Mat6 Slices MatLoops MatOps Quat Transf RingDet Spec LoopFacts Entries InstZ InstR RFacts LUFacts QRFacts ProofsRing ProofsQuat InstF FloatFacts ProofsFloat ProofsFloat2 ProofsFloatErr ProofsFloatInv ProofsFloatNorm ProofsFloatRot ProofsFloatDrift.
Local Open Scope R_scope.

(** ** real 3x3 matrices that are nearly orthogonal *)
Definition gram (X : nat -> nat -> R) (i j : nat) : R := X 0%nat i * X 0%nat j + X 1%nat i * X 1%nat j + X 2%nat i * X 2%nat j.
Definition ap (X : nat -> nat -> R) (v : nat -> R) (i : nat) : R := X i 0%nat * v 0%nat + X i 1%nat * v 1%nat + X i 2%nat * v 2%nat.
Definition aap (X : nat -> nat -> R) (v : nat -> R) (i : nat) : R := Rabs (X i 0%nat * v 0%nat) + Rabs (X i 1%nat * v 1%nat) + Rabs (X i 2%nat * v 2%nat).
Definition tr (X : nat -> nat -> R) (i j : nat) : R := X j i.
Definition dlt (i j : nat) : R := if Nat.eqb i j then 1 else 0.
Definition orth (dl : R) (X : nat -> nat -> R) : Prop := forall i j, (i < 3)%nat -> (j < 3)%nat -> Rabs (gram X i j - dlt i j) <= dl.
Definition fro2 (X : nat -> nat -> R) : R := sumn 3 (fun i => sq_sum 3 (X i)).

Lemma orth_pos dl X : orth dl X -> 0 <= dl.
Proof. intros H. eapply Rle_trans; [apply Rabs_pos|apply (H 0%nat 0%nat); lia]. Qed.
Lemma fro2_orth dl X : orth dl X -> fro2 X <= 3 * (1 + dl).
Proof.
  intros H. pose proof (H 0%nat 0%nat ltac:(lia) ltac:(lia)) as H0. pose proof (H 1%nat 1%nat ltac:(lia) ltac:(lia)) as H1. pose proof (H 2%nat 2%nat ltac:(lia) ltac:(lia)) as H2.
  unfold dlt, gram in *. cbn [Nat.eqb] in *. apply Rabs_le_inv in H0, H1, H2. unfold fro2, sq_sum. cbn [sumn]. lazy [add zero R_Num]. lra.
Qed.
Lemma fro2_tr X : fro2 (tr X) = fro2 X.
Proof. unfold fro2, tr, sq_sum. cbn [sumn]. lazy [add zero R_Num]. ring. Qed.
Lemma entry_fro X i j : (i < 3)%nat -> (j < 3)%nat -> X i j * X i j <= fro2 X.
Proof.
  intros Hi Hj. unfold fro2, sq_sum. cbn [sumn]. lazy [add zero R_Num].
  assert (S : forall x : R, 0 <= x * x) by (intros; apply Rle_0_sqr).
  pose proof (S (X 0%nat 0%nat)). pose proof (S (X 0%nat 1%nat)). pose proof (S (X 0%nat 2%nat)). pose proof (S (X 1%nat 0%nat)). pose proof (S (X 1%nat 1%nat)).
  pose proof (S (X 1%nat 2%nat)). pose proof (S (X 2%nat 0%nat)). pose proof (S (X 2%nat 1%nat)). pose proof (S (X 2%nat 2%nat)).
  destruct i as [ |[ |[ |i]]]; [ | | |lia]; (destruct j as [ |[ |[ |j]]]; [ | | |lia]); lra.
Qed.

Lemma aap_row X v i : aap X v i <= nrm 3 (X i) * nrm 3 v.
Proof.
  assert (Ea : forall f, nrm 3 (fun k => Rabs (f k)) = nrm 3 f).
  { intros f. unfold nrm, sq_sum. f_equal. apply sumnR_ext. intros k _. rewrite <- Rabs_mult. apply Rabs_pos_eq, Rle_0_sqr. }
  pose proof (nrm_cs 3 (fun k => Rabs (X i k)) (fun k => Rabs (v k))) as C. rewrite !Ea in C. eapply Rle_trans; [ |exact C].
  eapply Rle_trans; [ |apply Rle_abs]. unfold aap. cbn [sumn]. lazy [add zero R_Num]. rewrite !Rabs_mult. lra.
Qed.
Lemma ap_aap X v i : Rabs (ap X v i) <= aap X v i.
Proof. unfold ap, aap. eapply Rle_trans; [apply Rabs_triang| ]. apply Rplus_le_compat_r, Rabs_triang. Qed.
Lemma aap_pos X v i : 0 <= aap X v i.
Proof. unfold aap. repeat apply Rplus_le_le_0_compat; apply Rabs_pos. Qed.

Lemma nrm_mono n f g : (forall k, (k < n)%nat -> Rabs (f k) <= g k) -> nrm n f <= nrm n g.
Proof.
  intros H. unfold nrm, sq_sum. apply sqrt_le_1_alt. apply sumn_le. intros k Hk. pose proof (H k Hk) as A. pose proof (Rabs_pos (f k)).
  rewrite <- (Rabs_pos_eq (f k * f k)) by apply Rle_0_sqr. rewrite Rabs_mult. apply Rmult_le_compat; lra.
Qed.
Lemma nrm_aap X v c : fro2 X <= c * c -> 0 <= c -> nrm 3 (aap X v) <= c * nrm 3 v.
Proof.
  intros H C. apply Rle_trans with (nrm 3 (fun i => nrm 3 v * nrm 3 (X i))).
  { apply nrm_mono. intros k _. rewrite Rabs_pos_eq by apply aap_pos. rewrite Rmult_comm. apply aap_row. }
  rewrite nrm_scal, Rabs_pos_eq by apply nrm_pos. rewrite (Rmult_comm c). apply Rmult_le_compat_l; [apply nrm_pos| ].
  apply nrm_le; [exact C| ]. eapply Rle_trans; [ |exact H]. unfold fro2. unfold sq_sum at 1. cbn [sumn]. lazy [add zero R_Num]. rewrite !nrm_sq. lra.
Qed.
Lemma nrm_ap X v c : fro2 X <= c * c -> 0 <= c -> nrm 3 (ap X v) <= c * nrm 3 v.
Proof. intros H C. eapply Rle_trans; [apply nrm_mono; intros k _; apply ap_aap|apply nrm_aap; assumption]. Qed.
Lemma fro_175 dl X : orth dl X -> dl <= / 100 -> fro2 X <= 175 / 100 * (175 / 100).
Proof. intros H D. pose proof (fro2_orth dl X H). lra. Qed.

(** [X^T X v] is close to [v] *)
Lemma orth_back dl X v : orth dl X -> nrm 3 (fun k => ap (tr X) (ap X v) k - v k) <= 3 * dl * nrm 3 v.
Proof.
  intros H. set (E := fun i j => gram X i j - dlt i j). rewrite (nrm_ext 3 _ (ap E v)).
  - apply nrm_ap; [ |pose proof (orth_pos dl X H); lra]. unfold fro2, sq_sum. cbn [sumn]. lazy [add zero R_Num].
    assert (S : forall i j, (i < 3)%nat -> (j < 3)%nat -> E i j * E i j <= dl * dl).
    { intros i j Hi Hj. rewrite <- (Rabs_pos_eq (E i j * E i j)) by apply Rle_0_sqr. rewrite Rabs_mult. apply Rmult_le_compat; try apply Rabs_pos; apply H; assumption. }
    pose proof (S 0%nat 0%nat ltac:(lia) ltac:(lia)). pose proof (S 0%nat 1%nat ltac:(lia) ltac:(lia)). pose proof (S 0%nat 2%nat ltac:(lia) ltac:(lia)).
    pose proof (S 1%nat 0%nat ltac:(lia) ltac:(lia)). pose proof (S 1%nat 1%nat ltac:(lia) ltac:(lia)). pose proof (S 1%nat 2%nat ltac:(lia) ltac:(lia)).
    pose proof (S 2%nat 0%nat ltac:(lia) ltac:(lia)). pose proof (S 2%nat 1%nat ltac:(lia) ltac:(lia)). pose proof (S 2%nat 2%nat ltac:(lia) ltac:(lia)). lra.
  - intros k Hk. unfold E, ap, tr, gram, dlt. destruct k as [ |[ |[ |k]]]; [ | | |lia]; cbn [Nat.eqb]; ring.
Qed.

Section F.
Context {prec emax : Z} {Hp : Prec_gt_0 prec} {He : Prec_lt_emax prec emax} {O : FOracle (binary_float prec emax)}.
Notation fl := (binary_float prec emax).
Notation uro := (uro (prec := prec)).
Notation eta := (eta (prec := prec) (emax := emax)).
Hypothesis Hp11 : (11 <= prec)%Z.
Hypothesis He4 : (4 * prec <= emax)%Z.

Definition mR (r : M33 fl) : nat -> nat -> R := fun i j => B2R (mfun r i j).
Definition vR (v : V3 fl) : nat -> R := fun k => B2R (vfun v k).

(** a float matrix that is orthogonal up to [dl] *)
Definition near_rot (dl : R) (r : M33 fl) : Prop :=
  (forall i j, (i < 3)%nat -> (j < 3)%nat -> is_finite (mfun r i j) = true) /\ orth dl (mR r).
(** finite and at most [b] *)
Definition vec_le (b : R) (v : V3 fl) : Prop := forall k, (k < 3)%nat -> is_finite (vfun v k) = true /\ Rabs (vR v k) <= b.

Ltac ufin_go := lazymatch goal with
  | |- ufin (add _ _) _ => eapply ufin_add; [exact Hp11|exact He4|ufin_go..]
  | |- ufin (sub _ _) _ => eapply ufin_sub; [exact Hp11|exact He4|ufin_go..]
  | |- ufin (mul _ _) _ => eapply ufin_mul; [exact Hp11|exact He4|ufin_go..]
  | |- _ => eassumption
  end.

Lemma big_b : exists b, b = bpow radix2 (emax - 10) /\ 1 <= b /\ bpow radix2 emax = 1024 * b.
Proof.
  exists (bpow radix2 (emax - 10)). split; [reflexivity|split].
  - change 1 with (bpow radix2 0). apply bpow_le. lia.
  - replace emax with (10 + (emax - 10))%Z at 1 by ring. rewrite bpow_plus. reflexivity.
Qed.

(** applying [r] and a translation to a point whose fourth coordinate is [w] *)
Lemma affine_err (r : M33 fl) (c x : V3 fl) (w : fl) b : b = bpow radix2 (emax - 10) ->
  (forall i j, (i < 3)%nat -> (j < 3)%nat -> is_finite (mfun r i j) = true /\ Rabs (mR r i j) <= 2) ->
  vec_le (16 * b) c -> vec_le (16 * b) x -> is_finite w = true -> Rabs (B2R w) <= 1 ->
  forall i, (i < 3)%nat -> let y := vfun (m44_mul_v (homogeneous_from_rotation r c) [| x.[0]; x.[1]; x.[2]; w |]) i in
  is_finite y = true /\
  Rabs (B2R y - (ap (mR r) (vR x) i + vR c i * B2R w)) <= 401 / 100 * uro * (aap (mR r) (vR x) i + Rabs (vR c i * B2R w)) + 5 * eta.
Proof.
  intros Eb Hr Hc Hx Fw Bw i Hi y. destruct big_b as (b' & Eb' & B1 & BE). rewrite <- Eb in Eb'. subst b'.
  assert (F : is_finite y = true).
  { assert (Lr : forall j, (j < 3)%nat -> ufin (mfun r i j) (2, 0%nat)) by (intros j Hj; apply ufin_leaf; [apply Hr; assumption|apply Hr; assumption|lra]).
    assert (Lx : forall j, (j < 3)%nat -> ufin (vfun x j) (16 * b, 0%nat)) by (intros j Hj; apply ufin_leaf; [apply Hx, Hj|apply Hx, Hj|lra]).
    assert (Lc : ufin (vfun c i) (16 * b, 0%nat)) by (apply ufin_leaf; [apply Hc, Hi|apply Hc, Hi|lra]).
    assert (Lw : ufin w (1, 0%nat)) by (apply ufin_leaf; [exact Fw|exact Bw|lra]).
    pose proof (Lr 0%nat ltac:(lia)) as R0. pose proof (Lr 1%nat ltac:(lia)) as R1. pose proof (Lr 2%nat ltac:(lia)) as R2.
    pose proof (Lx 0%nat ltac:(lia)) as X0. pose proof (Lx 1%nat ltac:(lia)) as X1. pose proof (Lx 2%nat ltac:(lia)) as X2.
    clear Eb Lr Lx Hr Hc Hx. revert R0 R1 R2 X0 X1 X2 Lc. subst y.
    destruct r as ((r00&r01&r02&[])&(r10&r11&r12&[])&(r20&r21&r22&[])&[]), c as (c0&c1&c2&[]), x as (x0&x1&x2&[]).
    destruct i as [ |[ |[ |i]]]; [ | | |lia];
    lazy [m44_mul_v homogeneous_from_rotation vfun mfun List.nth List.map alist ix0 ix1 ix2 ix3 ahd atl acons anil fst snd];
    intros R0 R1 R2 X0 X1 X2 Lc;
    (eapply (ufin_done Hp11 _ _ _ _ (256 * b) 100); [ufin_go|reflexivity|lra|cbn; lra|lra|lra]). }
  split; [exact F| ].
  pose proof (c50_mul_v_error D4 (homogeneous_from_rotation r c) [| x.[0]; x.[1]; x.[2]; w |] i ltac:(cbn; lia) F) as E. unfold err in E.
  change (d_mul_v D4 (homogeneous_from_rotation r c) [| x.[0]; x.[1]; x.[2]; w |]) with (m44_mul_v (homogeneous_from_rotation r c) [| x.[0]; x.[1]; x.[2]; w |]) in E.
  fold y in E.
  match type of E with Rabs (_ - ?s) <= _ * ?m + _ => assert (E1 : s = ap (mR r) (vR x) i + vR c i * B2R w); [ |assert (E2 : m = aap (mR r) (vR x) i + Rabs (vR c i * B2R w))] end.
  { clear - Hi. destruct r as ((r00&r01&r02&[])&(r10&r11&r12&[])&(r20&r21&r22&[])&[]), c as (c0&c1&c2&[]), x as (x0&x1&x2&[]).
    destruct i as [ |[ |[ |i]]]; [ | | |lia]; unfold ap, mR, vR; cbn [dimn sumn]; lazy [add mul zero R_Num homogeneous_from_rotation vfun mfun List.nth List.map alist ix0 ix1 ix2 ix3 ahd atl acons anil fst snd]; ring. }
  { clear - Hi. destruct r as ((r00&r01&r02&[])&(r10&r11&r12&[])&(r20&r21&r22&[])&[]), c as (c0&c1&c2&[]), x as (x0&x1&x2&[]).
    destruct i as [ |[ |[ |i]]]; [ | | |lia]; unfold aap, mR, vR; cbn [dimn sumn]; lazy [add mul zero R_Num homogeneous_from_rotation vfun mfun List.nth List.map alist ix0 ix1 ix2 ix3 ahd atl acons anil fst snd]; ring. }
  rewrite E1, E2 in E. eapply Rle_trans; [exact E| ]. clear E E1 E2.
  pose proof (uro_small Hp11) as U. pose proof (uro_pos (prec := prec)) as P. assert (E0 : 0 <= eta) by apply eta_pos.
  pose proof (pow_lin Hp11 4 (401 / 100) ltac:(cbn; lra) ltac:(lra)) as P4. pose proof (pow_mono 0 4 ltac:(lia) : _ <= _ <= (1 + uro) ^ 4) as [_ P4']. rewrite pow_O in P4'.
  change (dimn D4) with 4%nat. set (p := (1 + uro) ^ 4) in *. clearbody p.
  pose proof (aap_pos (mR r) (vR x) i) as A0. pose proof (Rabs_pos (vR c i * B2R w)) as A1.
  apply Rplus_le_compat; [apply Rmult_le_compat_r; lra| ]. apply Rmult_le_compat_r; [exact E0|cbn [INR]; lra].
Qed.

(** the linear part alone *)
Lemma linear_err (r : M33 fl) (x : V3 fl) b : b = bpow radix2 (emax - 10) ->
  (forall i j, (i < 3)%nat -> (j < 3)%nat -> is_finite (mfun r i j) = true /\ Rabs (mR r i j) <= 2) -> vec_le (16 * b) x ->
  forall i, (i < 3)%nat -> let y := vfun (m33_mul_v r x) i in
  is_finite y = true /\ Rabs (B2R y - ap (mR r) (vR x) i) <= 301 / 100 * uro * aap (mR r) (vR x) i + 4 * eta.
Proof.
  intros Eb Hr Hx i Hi y. destruct big_b as (b' & Eb' & B1 & BE). rewrite <- Eb in Eb'. subst b'.
  assert (F : is_finite y = true).
  { assert (Lr : forall j, (j < 3)%nat -> ufin (mfun r i j) (2, 0%nat)) by (intros j Hj; apply ufin_leaf; [apply Hr; assumption|apply Hr; assumption|lra]).
    assert (Lx : forall j, (j < 3)%nat -> ufin (vfun x j) (16 * b, 0%nat)) by (intros j Hj; apply ufin_leaf; [apply Hx, Hj|apply Hx, Hj|lra]).
    pose proof (Lr 0%nat ltac:(lia)) as R0. pose proof (Lr 1%nat ltac:(lia)) as R1. pose proof (Lr 2%nat ltac:(lia)) as R2.
    pose proof (Lx 0%nat ltac:(lia)) as X0. pose proof (Lx 1%nat ltac:(lia)) as X1. pose proof (Lx 2%nat ltac:(lia)) as X2.
    clear Eb Lr Lx Hr Hx. revert R0 R1 R2 X0 X1 X2. subst y.
    destruct r as ((r00&r01&r02&[])&(r10&r11&r12&[])&(r20&r21&r22&[])&[]), x as (x0&x1&x2&[]).
    destruct i as [ |[ |[ |i]]]; [ | | |lia];
    lazy [m33_mul_v vfun mfun List.nth List.map alist ix0 ix1 ix2 ix3 ahd atl acons anil fst snd];
    intros R0 R1 R2 X0 X1 X2;
    (eapply (ufin_done Hp11 _ _ _ _ (256 * b) 100); [ufin_go|reflexivity|lra|cbn; lra|lra|lra]). }
  split; [exact F| ].
  pose proof (c50_mul_v_error D3 r x i ltac:(cbn; lia) F) as E. unfold err in E.
  change (d_mul_v D3 r x) with (m33_mul_v r x) in E. fold y in E.
  match type of E with Rabs (_ - ?s) <= _ * ?m + _ => assert (E1 : s = ap (mR r) (vR x) i); [ |assert (E2 : m = aap (mR r) (vR x) i)] end.
  { unfold ap, mR, vR. cbn [dimn sumn]. lazy [add mul zero R_Num]. ring. }
  { unfold aap, mR, vR. cbn [dimn sumn]. lazy [add mul zero R_Num]. ring. }
  rewrite E1, E2 in E. eapply Rle_trans; [exact E| ]. clear E E1 E2.
  pose proof (uro_small Hp11) as U. pose proof (uro_pos (prec := prec)) as P. assert (E0 : 0 <= eta) by apply eta_pos.
  pose proof (pow_lin Hp11 3 (301 / 100) ltac:(cbn; lra) ltac:(lra)) as P4. pose proof (pow_mono 0 3 ltac:(lia) : _ <= _ <= (1 + uro) ^ 3) as [_ P4']. rewrite pow_O in P4'.
  change (dimn D3) with 3%nat. set (p := (1 + uro) ^ 3) in *. clearbody p. pose proof (aap_pos (mR r) (vR x) i) as A0.
  apply Rplus_le_compat; [apply Rmult_le_compat_r; lra| ]. apply Rmult_le_compat_r; [exact E0|cbn [INR]; lra].
Qed.

(** the difference of two points *)
Lemma sub_err (x y : V3 fl) b c : b = bpow radix2 (emax - 10) -> 1 <= c <= 16 -> vec_le (c * b) x -> vec_le (c * b) y ->
  forall i, (i < 3)%nat -> is_finite (vfun (v3_sub x y) i) = true /\ Rabs (vR (v3_sub x y) i - (vR x i - vR y i)) <= uro * Rabs (vR x i - vR y i).
Proof.
  intros Eb Hc Hx Hy i Hi. destruct big_b as (b' & Eb' & B1 & BE). rewrite <- Eb in Eb'. subst b'.
  assert (C1 : 1 * 1 <= c * b) by (apply Rmult_le_compat; lra). assert (C2 : c * b <= 16 * b) by (apply Rmult_le_compat_r; lra).
  assert (Ev : vfun (v3_sub x y) i = Bminus mode_NE (vfun x i) (vfun y i)).
  { destruct x as (x0&x1&x2&[]), y as (y0&y1&y2&[]). destruct i as [ |[ |[ |i]]]; [reflexivity..|lia]. }
  assert (F : is_finite (vfun (v3_sub x y) i) = true).
  { rewrite Ev. change (Bminus mode_NE (vfun x i) (vfun y i)) with (sub (vfun x i) (vfun y i)).
    assert (Lx : ufin (vfun x i) (c * b, 0%nat)) by (apply ufin_leaf; [apply Hx, Hi|apply Hx, Hi|lra]).
    assert (Ly : ufin (vfun y i) (c * b, 0%nat)) by (apply ufin_leaf; [apply Hy, Hi|apply Hy, Hi|lra]).
    eapply (ufin_done Hp11 _ _ _ _ (256 * b) 100); [ufin_go|reflexivity|lra|cbn; lra|lra|lra]. }
  split; [exact F| ]. unfold vR. rewrite Ev in F |- *. rewrite Bminus_plus in F |- *. pose proof (plus_rel _ _ F) as E. rewrite B2R_Bopp in E. exact E.
Qed.

(** what [homogeneous_inverse_transform] computes from the parts *)
Definition inv_tr (r : M33 fl) (t : V3 fl) : V3 fl := m33_mul_v (m33_neg (m33_transpose r)) t.
Lemma hit_eq (r : M33 fl) (t p : V3 fl) : let d := v3_sub p t in
  let s := m44_mul_v (homogeneous_from_rotation (m33_transpose r) (inv_tr r t)) [| d.[0]; d.[1]; d.[2]; zero |] in
  homogeneous_inverse_transform (homogeneous_from_rotation r t) p = [| s.[0]; s.[1]; s.[2] |].
Proof.
  destruct r as ((r00&r01&r02&[])&(r10&r11&r12&[])&(r20&r21&r22&[])&[]), t as (t0&t1&t2&[]). cbv zeta.
  unfold homogeneous_inverse_transform, get_parts. destruct (rotation_to_euler _) as [[e1 e2] e3]. reflexivity.
Qed.

Lemma mfun_tr (r : M33 fl) i j : (i < 3)%nat -> (j < 3)%nat -> mfun (m33_transpose r) i j = mfun r j i.
Proof.
  intros Hi Hj. destruct r as ((r00&r01&r02&[])&(r10&r11&r12&[])&(r20&r21&r22&[])&[]).
  destruct i as [ |[ |[ |i]]]; [ | | |lia]; (destruct j as [ |[ |[ |j]]]; [reflexivity..|lia]).
Qed.
Lemma mfun_ntr (r : M33 fl) i j : (i < 3)%nat -> (j < 3)%nat -> mfun (m33_neg (m33_transpose r)) i j = Bopp (mfun r j i).
Proof.
  intros Hi Hj. destruct r as ((r00&r01&r02&[])&(r10&r11&r12&[])&(r20&r21&r22&[])&[]).
  destruct i as [ |[ |[ |i]]]; [ | | |lia]; (destruct j as [ |[ |[ |j]]]; [reflexivity..|lia]).
Qed.
Lemma ap_tr (r : M33 fl) v i : (i < 3)%nat -> ap (mR (m33_transpose r)) v i = ap (tr (mR r)) v i.
Proof. intros Hi. unfold ap, tr, mR. rewrite !mfun_tr by lia. reflexivity. Qed.
Lemma aap_tr (r : M33 fl) v i : (i < 3)%nat -> aap (mR (m33_transpose r)) v i = aap (tr (mR r)) v i.
Proof. intros Hi. unfold aap, tr, mR. rewrite !mfun_tr by lia. reflexivity. Qed.

Lemma near_entry dl (r : M33 fl) : near_rot dl r -> dl <= / 100 ->
  forall i j, (i < 3)%nat -> (j < 3)%nat -> is_finite (mfun r i j) = true /\ Rabs (mR r i j) <= 175 / 100.
Proof.
  intros [F Or] D i j Hi Hj. split; [apply F; assumption| ]. pose proof (entry_fro (mR r) i j Hi Hj) as E. pose proof (fro_175 dl _ Or D) as G.
  set (x := mR r i j) in *. apply Rabs_le. split; nra.
Qed.
Lemma near_entry2 dl (r : M33 fl) : near_rot dl r -> dl <= / 100 ->
  forall i j, (i < 3)%nat -> (j < 3)%nat -> is_finite (mfun r i j) = true /\ Rabs (mR r i j) <= 2.
Proof. intros N D i j Hi Hj. destruct (near_entry dl r N D i j Hi Hj). split; [assumption|lra]. Qed.
Lemma near_entry2t dl (r : M33 fl) : near_rot dl r -> dl <= / 100 ->
  forall i j, (i < 3)%nat -> (j < 3)%nat -> is_finite (mfun (m33_transpose r) i j) = true /\ Rabs (mR (m33_transpose r) i j) <= 2.
Proof. intros N D i j Hi Hj. unfold mR. rewrite mfun_tr by assumption. exact (near_entry2 dl r N D j i Hj Hi). Qed.

(** magnitude of what comes out *)
Lemma aap_le X v m b i : (forall j, (j < 3)%nat -> Rabs (X i j) <= m) -> (forall j, (j < 3)%nat -> Rabs (v j) <= b) -> aap X v i <= 3 * (m * b).
Proof.
  intros A B. assert (C : forall j, (j < 3)%nat -> Rabs (X i j * v j) <= m * b).
  { intros j Hj. rewrite Rabs_mult. apply Rmult_le_compat; try apply Rabs_pos; [apply A|apply B]; exact Hj. }
  unfold aap. pose proof (C 0%nat ltac:(lia)). pose proof (C 1%nat ltac:(lia)). pose proof (C 2%nat ltac:(lia)). lra.
Qed.

(** the computed translation of the inverse *)
Lemma inv_tr_err dl (r : M33 fl) (t : V3 fl) b : b = bpow radix2 (emax - 10) -> near_rot dl r -> dl <= / 100 -> vec_le b t ->
  forall i, (i < 3)%nat -> is_finite (vfun (inv_tr r t) i) = true /\ Rabs (vR (inv_tr r t) i) <= 6 * b /\
  Rabs (vR (inv_tr r t) i + ap (tr (mR r)) (vR t) i) <= 301 / 100 * uro * aap (tr (mR r)) (vR t) i + 4 * eta.
Proof.
  intros Eb N D Ht i Hi. destruct big_b as (b' & Eb' & B1 & BE). rewrite <- Eb in Eb'. subst b'.
  assert (Hr : forall i j, (i < 3)%nat -> (j < 3)%nat -> is_finite (mfun (m33_neg (m33_transpose r)) i j) = true /\ Rabs (mR (m33_neg (m33_transpose r)) i j) <= 2).
  { intros k l Hk Hl. unfold mR. rewrite mfun_ntr by assumption. rewrite is_finite_Bopp, B2R_Bopp, Rabs_Ropp. exact (near_entry2 dl r N D l k Hl Hk). }
  assert (Ht' : vec_le (16 * b) t) by (intros k Hk; destruct (Ht k Hk) as [Q1 Q2]; split; [exact Q1|lra]).
  destruct (linear_err _ t b Eb Hr Ht' i Hi) as [F E]. fold (inv_tr r t) in F, E. cbv zeta in E. fold (vR (inv_tr r t) i) in E.
  assert (E1 : ap (mR (m33_neg (m33_transpose r))) (vR t) i = - ap (tr (mR r)) (vR t) i).
  { unfold ap, tr, mR. rewrite !mfun_ntr by lia. rewrite !B2R_Bopp. ring. }
  assert (E2 : aap (mR (m33_neg (m33_transpose r))) (vR t) i = aap (tr (mR r)) (vR t) i).
  { unfold aap, tr, mR. rewrite !mfun_ntr by lia. rewrite !B2R_Bopp. rewrite <- !Ropp_mult_distr_l, !Rabs_Ropp. reflexivity. }
  rewrite E1, E2 in E. replace (vR (inv_tr r t) i - - ap (tr (mR r)) (vR t) i) with (vR (inv_tr r t) i + ap (tr (mR r)) (vR t) i) in E by ring.
  split; [exact F|split; [ |exact E]].
  assert (M : aap (tr (mR r)) (vR t) i <= 3 * (175 / 100 * b)).
  { apply aap_le; [intros j Hj; apply (near_entry dl r N D j i Hj Hi)|intros j Hj; apply Ht, Hj]. }
  pose proof (ap_aap (tr (mR r)) (vR t) i) as M'. set (a := ap _ _ _) in *. set (aa := aap _ _ _) in *. set (x := vR _ i) in *. clearbody a aa x.
  pose proof (uro_small Hp11) as U. pose proof (uro_pos (prec := prec)) as P. pose proof (eta_tiny Hp11 He4) as T. assert (E0 : 0 <= eta) by apply eta_pos.
  assert (Z : 301 / 100 * uro * aa <= / 500 * (6 * b)).
  { apply Rle_trans with (301 / 100 * uro * (6 * b)); [apply Rmult_le_compat_l; lra|apply Rmult_le_compat_r; lra]. }
  clear - E Z M M' T U B1 E0 P. apply Rabs_le_inv in E, M'. apply Rabs_le. lra.
Qed.

(** applying the inverse to a difference [d] *)
Lemma back_err dl (r : M33 fl) (t d : V3 fl) b : b = bpow radix2 (emax - 10) -> near_rot dl r -> dl <= / 100 -> vec_le b t -> vec_le (16 * b) d ->
  let s := m44_mul_v (homogeneous_from_rotation (m33_transpose r) (inv_tr r t)) [| d.[0]; d.[1]; d.[2]; zero |] in
  forall i, (i < 3)%nat -> is_finite (vfun s i) = true /\ Rabs (B2R (vfun s i) - ap (tr (mR r)) (vR d) i) <= 401 / 100 * uro * aap (tr (mR r)) (vR d) i + 5 * eta.
Proof.
  intros Eb N D Ht Hd s i Hi. destruct big_b as (b' & Eb' & B1 & BE). rewrite <- Eb in Eb'. subst b'.
  assert (Hc : vec_le (16 * b) (inv_tr r t)).
  { intros k Hk. destruct (inv_tr_err dl r t b Eb N D Ht k Hk) as (Q1 & Q2 & _). split; [exact Q1|lra]. }
  assert (Z0 : B2R (zero : fl) = 0) by reflexivity. assert (Fz : is_finite (zero : fl) = true) by reflexivity.
  destruct (affine_err (m33_transpose r) (inv_tr r t) d zero b Eb (near_entry2t dl r N D) Hc Hd Fz ltac:(rewrite Z0, Rabs_R0; lra) i Hi) as [F E].
  fold s in F, E. cbv zeta in E. rewrite Z0, Rmult_0_r, Rabs_R0, !Rplus_0_r, ap_tr, aap_tr in E by exact Hi. split; [exact F|exact E].
Qed.

Lemma sqrt3 : sqrt (INR 3) <= 17321 / 10000.
Proof. replace (INR 3) with 3 by (cbn; lra). rewrite <- (sqrt_square (17321 / 10000)) by lra. apply sqrt_le_1_alt. lra. Qed.
(** a componentwise error as a norm *)
Lemma err_nrm e X v c k : fro2 X <= 175 / 100 * (175 / 100) -> 0 <= c -> 0 <= k ->
  (forall i, (i < 3)%nat -> Rabs (e i) <= c * aap X v i + k) -> nrm 3 e <= c * (175 / 100) * nrm 3 v + 17321 / 10000 * k.
Proof.
  intros H C K E. apply Rle_trans with (nrm 3 (fun i => c * aap X v i + k)); [apply nrm_mono, E| ].
  eapply Rle_trans; [apply (nrm_plus 3 (fun i => c * aap X v i) (fun _ => k))| ]. apply Rplus_le_compat.
  - rewrite nrm_scal, Rabs_pos_eq, Rmult_assoc by exact C. apply Rmult_le_compat_l; [exact C|apply nrm_aap; [exact H|lra]].
  - eapply Rle_trans; [apply (nrm_bound 3 _ k K); intros; rewrite Rabs_pos_eq by exact K; apply Rle_refl|apply Rmult_le_compat_r; [exact K|apply sqrt3]].
Qed.

(** moving a point and moving it back *)
Lemma c92_round_trip : forall dl (r : M33 fl) (t p : V3 fl), near_rot dl r -> dl <= / 100 ->
  vec_le (bpow radix2 (emax - 10)) t -> vec_le (bpow radix2 (emax - 10)) p ->
  let M := homogeneous_from_rotation r t in
  let y := m44_mul_v M [| p.[0]; p.[1]; p.[2]; one |] in
  let x := homogeneous_inverse_transform M [| y.[0]; y.[1]; y.[2] |] in
  (forall k, (k < 3)%nat -> is_finite (vfun x k) = true) /\
  nrm 3 (fun k => vR x k - vR p k) <= (3 * dl + 29 * uro) * nrm 3 (vR p) + 8 * uro * nrm 3 (vR t) + 30 * eta.
Proof.
  intros dl r t p N D Ht Hp0 M y x. remember (bpow radix2 (emax - 10)) as b eqn:Eb. destruct big_b as (b' & Eb' & B1 & BE). rewrite <- Eb in Eb'. subst b'.
  pose proof (uro_small Hp11) as U. pose proof (uro_pos (prec := prec)) as P. pose proof (eta_tiny Hp11 He4) as T. assert (E0 : 0 <= eta) by apply eta_pos.
  assert (W : forall v, vec_le b v -> vec_le (16 * b) v) by (intros v Hv k Hk; destruct (Hv k Hk); split; [assumption|lra]).
  assert (O1 : B2R (one : fl) = 1) by apply Bone_correct. assert (F1 : is_finite (one : fl) = true) by apply is_finite_Bone.
  set (y3 := [| y.[0]; y.[1]; y.[2] |] : V3 fl).
  assert (Ey : forall i, (i < 3)%nat -> vfun y3 i = vfun y i).
  { intros i Hi. subst y3. clearbody y. destruct y as (y0&y1&y2&yy&[]). destruct i as [ |[ |[ |i]]]; [reflexivity..|lia]. }
  assert (A : forall i, (i < 3)%nat -> is_finite (vfun y3 i) = true /\ Rabs (vR y3 i - (ap (mR r) (vR p) i + vR t i)) <= 401 / 100 * uro * (aap (mR r) (vR p) i + Rabs (vR t i)) + 5 * eta).
  { intros i Hi. destruct (affine_err r t p one b Eb (near_entry2 dl r N D) (W t Ht) (W p Hp0) F1 ltac:(rewrite O1, Rabs_R1; lra) i Hi) as [F E].
    fold M in F, E. fold y in F, E. cbv zeta in E. rewrite O1, Rmult_1_r in E. unfold vR at 1. rewrite Ey by exact Hi. split; [exact F|exact E]. }
  assert (Y7 : vec_le (7 * b) y3).
  { intros i Hi. destruct (A i Hi) as [F E]. split; [exact F| ].
    assert (Q : aap (mR r) (vR p) i <= 3 * (175 / 100 * b)) by (apply aap_le; intros j Hj; [apply (near_entry dl r N D i j Hi Hj)|apply Hp0, Hj]).
    pose proof (ap_aap (mR r) (vR p) i) as Q'. destruct (Ht i Hi) as [_ Qt]. pose proof (aap_pos (mR r) (vR p) i) as Q0.
    set (a := ap _ _ _) in *. set (aa := aap _ _ _) in *. set (z := vR y3 i) in *. set (ti := vR t i) in *. pose proof (Rabs_pos ti) as Q1.
    assert (Z : 401 / 100 * uro * (aa + Rabs ti) <= / 500 * (7 * b)).
    { apply Rle_trans with (401 / 100 * uro * (7 * b)); [apply Rmult_le_compat_l; lra|apply Rmult_le_compat_r; lra]. }
    clear - E Z Q Q' Qt T U B1 E0 P Q0. apply Rabs_le_inv in E, Q', Qt. apply Rabs_le. lra. }
  assert (T7 : vec_le (7 * b) t) by (intros k Hk; destruct (Ht k Hk); split; [assumption|lra]).
  set (d := v3_sub y3 t). pose proof (sub_err y3 t b 7 Eb ltac:(lra) Y7 T7) as Sd. fold d in Sd.
  assert (D16 : vec_le (16 * b) d).
  { intros i Hi. destruct (Sd i Hi) as [F E]. split; [exact F| ]. destruct (Y7 i Hi) as [_ Q1]. destruct (Ht i Hi) as [_ Q2].
    set (z := vR d i) in *. set (w := vR y3 i) in *. set (ti := vR t i) in *.
    assert (Rabs (w - ti) <= 8 * b) by (apply Rabs_le_inv in Q1, Q2; apply Rabs_le; lra).
    assert (uro * Rabs (w - ti) <= / 2048 * (8 * b)) by (apply Rmult_le_compat; try lra; apply Rabs_pos). clear - E H H0 B1. apply Rabs_le_inv in E, H. apply Rabs_le. lra. }
  assert (X : forall i, (i < 3)%nat -> is_finite (vfun x i) = true /\ Rabs (vR x i - ap (tr (mR r)) (vR d) i) <= 401 / 100 * uro * aap (tr (mR r)) (vR d) i + 5 * eta).
  { intros i Hi. pose proof (back_err dl r t d b Eb N D Ht D16 i Hi) as E. unfold vR at 1. subst x. unfold M. rewrite hit_eq. fold y3. fold d. cbv zeta.
    set (s := m44_mul_v (homogeneous_from_rotation (m33_transpose r) (inv_tr r t)) [| d.[0]; d.[1]; d.[2]; zero |]) in *. cbv zeta in E. clearbody s.
    destruct s as (s0&s1&s2&s3&[]). destruct i as [ |[ |[ |i]]]; [exact E..|lia]. }
  split; [intros k Hk; apply X, Hk| ].
  destruct N as [_ Or]. pose proof (fro_175 dl _ Or D) as Fr. assert (Fr' : fro2 (tr (mR r)) <= 175 / 100 * (175 / 100)) by (rewrite fro2_tr; exact Fr).
  set (np := nrm 3 (vR p)). set (nt := nrm 3 (vR t)). assert (Np : 0 <= np) by apply nrm_pos. assert (Nt : 0 <= nt) by apply nrm_pos.
  (* error of y *)
  set (e1 := fun i => vR y3 i - (ap (mR r) (vR p) i + vR t i)).
  assert (K1 : nrm 3 e1 <= 702 / 100 * uro * np + 401 / 100 * uro * nt + 867 / 100 * eta).
  { apply Rle_trans with (nrm 3 (fun i => (401 / 100 * uro * aap (mR r) (vR p) i + 5 * eta) + 401 / 100 * uro * Rabs (vR t i))).
    { apply nrm_mono. intros k Hk. eapply Rle_trans; [apply (A k Hk)|lra]. }
    eapply Rle_trans; [apply (nrm_plus 3 (fun i => 401 / 100 * uro * aap (mR r) (vR p) i + 5 * eta) (fun i => 401 / 100 * uro * Rabs (vR t i)))| ].
    assert (G1 : nrm 3 (fun i => 401 / 100 * uro * aap (mR r) (vR p) i + 5 * eta) <= 401 / 100 * uro * (175 / 100) * np + 17321 / 10000 * (5 * eta)).
    { apply (err_nrm _ (mR r)); [exact Fr|lra|lra| ]. intros i Hi. rewrite Rabs_pos_eq; [lra| ]. assert (0 <= uro * aap (mR r) (vR p) i) by (apply Rmult_le_pos; [lra|apply aap_pos]). lra. }
    assert (G2 : nrm 3 (fun i => 401 / 100 * uro * Rabs (vR t i)) = 401 / 100 * uro * nt).
    { rewrite (nrm_scal 3 (401 / 100 * uro) (fun i => Rabs (vR t i))), Rabs_pos_eq by lra. f_equal. unfold nt, nrm, sq_sum. f_equal. apply sumnR_ext. intros k _.
      rewrite <- Rabs_mult. apply Rabs_pos_eq, Rle_0_sqr. }
    rewrite G2. assert (0 <= uro * np) by (apply Rmult_le_pos; lra). lra. }
  (* the difference d *)
  set (e2 := fun i => vR d i - (vR y3 i - vR t i)).
  assert (Ep : nrm 3 (ap (mR r) (vR p)) <= 175 / 100 * np) by (apply nrm_ap; [exact Fr|lra]).
  set (n1 := nrm 3 e1) in *. assert (N1 : 0 <= n1) by apply nrm_pos.
  assert (Kd : nrm 3 (fun i => vR y3 i - vR t i) <= 175 / 100 * np + n1).
  { rewrite (nrm_ext 3 _ (fun i => ap (mR r) (vR p) i + e1 i)) by (intros; unfold e1; ring). eapply Rle_trans; [apply nrm_plus|unfold n1; lra]. }
  assert (K2 : nrm 3 e2 <= uro * (175 / 100 * np + n1)).
  { apply Rle_trans with (nrm 3 (fun i => uro * (fun i => Rabs (vR y3 i - vR t i)) i)).
    { apply nrm_mono. intros k Hk. apply (Sd k Hk). }
    rewrite nrm_scal, Rabs_pos_eq by lra. apply Rmult_le_compat_l; [lra| ]. eapply Rle_trans; [ |exact Kd]. right. unfold nrm, sq_sum. f_equal. apply sumnR_ext. intros k _.
    rewrite <- Rabs_mult. apply Rabs_pos_eq, Rle_0_sqr. }
  set (n2 := nrm 3 e2) in *. assert (N2 : 0 <= n2) by apply nrm_pos.
  assert (Kd' : nrm 3 (vR d) <= 175 / 100 * np + n1 + n2).
  { rewrite (nrm_ext 3 _ (fun i => (vR y3 i - vR t i) + e2 i)) by (intros; unfold e2; ring).
    eapply Rle_trans; [apply (nrm_plus 3 (fun i => vR y3 i - vR t i) e2)|unfold n2; lra]. }
  set (e3 := fun i => vR x i - ap (tr (mR r)) (vR d) i).
  assert (K3 : nrm 3 e3 <= 401 / 100 * uro * (175 / 100) * nrm 3 (vR d) + 17321 / 10000 * (5 * eta)).
  { apply (err_nrm e3 (tr (mR r))); [exact Fr'|lra|lra| ]. intros i Hi. apply (X i Hi). }
  assert (K4 : nrm 3 (fun k => ap (tr (mR r)) (ap (mR r) (vR p)) k - vR p k) <= 3 * dl * np) by (apply orth_back, Or).
  assert (K5 : nrm 3 (ap (tr (mR r)) (fun i => e1 i + e2 i)) <= 175 / 100 * (n1 + n2)).
  { eapply Rle_trans; [apply (nrm_ap _ _ (175 / 100)); [exact Fr'|lra]| ]. apply Rmult_le_compat_l; [lra|apply nrm_plus]. }
  rewrite (nrm_ext 3 _ (fun k => ((ap (tr (mR r)) (ap (mR r) (vR p)) k - vR p k) + ap (tr (mR r)) (fun i => e1 i + e2 i) k) + e3 k)).
  2: { intros k Hk. unfold e3, e2, e1, ap. ring. }
  eapply Rle_trans; [apply (nrm_plus 3 (fun k => (ap (tr (mR r)) (ap (mR r) (vR p)) k - vR p k) + ap (tr (mR r)) (fun i => e1 i + e2 i) k) e3)| ].
  pose proof (nrm_plus 3 (fun k => ap (tr (mR r)) (ap (mR r) (vR p)) k - vR p k) (ap (tr (mR r)) (fun i => e1 i + e2 i))) as K6. cbv beta in K6.
  set (nd := nrm 3 (vR d)) in *. set (n3 := nrm 3 e3) in *. set (n4 := nrm 3 (fun k => ap (tr (mR r)) (ap (mR r) (vR p)) k - vR p k)) in *.
  set (n5 := nrm 3 (ap (tr (mR r)) (fun i => e1 i + e2 i))) in *. set (n6 := nrm 3 (fun k => _ + _)) in *.
  clearbody n1 n2 nd n3 n4 n5 n6 np nt. clear - U P T E0 N1 N2 Np Nt K1 K2 Kd' K3 K4 K5 K6 D.
  assert (U1 : 0 <= uro * np) by (apply Rmult_le_pos; lra). assert (U2 : 0 <= uro * nt) by (apply Rmult_le_pos; lra).
  assert (U3 : uro * n1 <= / 2048 * n1) by (apply Rmult_le_compat_r; lra).
  assert (U4 : uro * n2 <= / 2048 * n2) by (apply Rmult_le_compat_r; lra).
  assert (U5 : uro * nd <= uro * (175 / 100 * np + n1 + n2)) by (apply Rmult_le_compat_l; lra).
  lra.
Qed.

(** moving a point back and forth: the rows must be orthonormal too *)
Lemma c92_round_trip_back : forall dl (r : M33 fl) (t p : V3 fl), near_rot dl r -> near_rot dl (m33_transpose r) -> dl <= / 100 ->
  vec_le (bpow radix2 (emax - 10)) t -> vec_le (bpow radix2 (emax - 10)) p ->
  let M := homogeneous_from_rotation r t in
  let x := homogeneous_inverse_transform M p in
  let y := m44_mul_v M [| x.[0]; x.[1]; x.[2]; one |] in
  (forall k, (k < 3)%nat -> is_finite (vfun y k) = true) /\
  nrm 3 (fun k => B2R (vfun y k) - vR p k) <= (301 / 100 * dl + 27 * uro) * nrm 3 (fun k => vR p k - vR t k) + 5 * uro * nrm 3 (vR t) + 26 * eta.
Proof.
  intros dl r t p N NT D Ht Hp0 M x y. remember (bpow radix2 (emax - 10)) as b eqn:Eb. destruct big_b as (b' & Eb' & B1 & BE). rewrite <- Eb in Eb'. subst b'.
  pose proof (uro_small Hp11) as U. pose proof (uro_pos (prec := prec)) as P. pose proof (eta_tiny Hp11 He4) as T. assert (E0 : 0 <= eta) by apply eta_pos.
  assert (W : forall v, vec_le b v -> vec_le (16 * b) v) by (intros v Hv k Hk; destruct (Hv k Hk); split; [assumption|lra]).
  assert (W1 : forall v, vec_le b v -> vec_le (1 * b) v) by (intros v Hv k Hk; destruct (Hv k Hk); split; [assumption|lra]).
  assert (O1 : B2R (one : fl) = 1) by apply Bone_correct. assert (F1 : is_finite (one : fl) = true) by apply is_finite_Bone.
  set (d := v3_sub p t). pose proof (sub_err p t b 1 Eb ltac:(lra) (W1 p Hp0) (W1 t Ht)) as Sd. fold d in Sd.
  assert (D3 : vec_le (201 / 100 * b) d).
  { intros i Hi. destruct (Sd i Hi) as [F E]. split; [exact F| ]. destruct (Hp0 i Hi) as [_ Q1]. destruct (Ht i Hi) as [_ Q2].
    set (z := vR d i) in *. set (w := vR p i) in *. set (ti := vR t i) in *.
    assert (Rabs (w - ti) <= 2 * b) by (apply Rabs_le_inv in Q1, Q2; apply Rabs_le; lra).
    assert (uro * Rabs (w - ti) <= / 2048 * (2 * b)) by (apply Rmult_le_compat; try lra; apply Rabs_pos). clear - E H H0 B1. apply Rabs_le_inv in E, H. apply Rabs_le. lra. }
  assert (D16 : vec_le (16 * b) d) by (intros k Hk; destruct (D3 k Hk); split; [assumption|lra]).
  assert (X : forall i, (i < 3)%nat -> is_finite (vfun x i) = true /\ Rabs (vR x i - ap (tr (mR r)) (vR d) i) <= 401 / 100 * uro * aap (tr (mR r)) (vR d) i + 5 * eta).
  { intros i Hi. pose proof (back_err dl r t d b Eb N D Ht D16 i Hi) as E. unfold vR at 1. subst x. unfold M. rewrite hit_eq. fold d. cbv zeta.
    set (s := m44_mul_v (homogeneous_from_rotation (m33_transpose r) (inv_tr r t)) [| d.[0]; d.[1]; d.[2]; zero |]) in *. cbv zeta in E. clearbody s.
    destruct s as (s0&s1&s2&s3&[]). destruct i as [ |[ |[ |i]]]; [exact E..|lia]. }
  assert (X16 : vec_le (16 * b) x).
  { intros i Hi. destruct (X i Hi) as [F E]. split; [exact F| ].
    assert (Q : aap (tr (mR r)) (vR d) i <= 3 * (175 / 100 * (201 / 100 * b))) by (apply aap_le; intros j Hj; [apply (near_entry dl r N D j i Hj Hi)|apply D3, Hj]).
    pose proof (ap_aap (tr (mR r)) (vR d) i) as Q'. pose proof (aap_pos (tr (mR r)) (vR d) i) as Q0.
    set (a := ap _ _ _) in *. set (aa := aap _ _ _) in *. set (z := vR x i) in *.
    assert (Z : 401 / 100 * uro * aa <= / 500 * (12 * b)).
    { apply Rle_trans with (401 / 100 * uro * (12 * b)); [apply Rmult_le_compat_l; lra|apply Rmult_le_compat_r; lra]. }
    clear - E Z Q Q' T U B1 E0 P Q0. apply Rabs_le_inv in E, Q'. apply Rabs_le. lra. }
  assert (A : forall i, (i < 3)%nat -> is_finite (vfun y i) = true /\ Rabs (B2R (vfun y i) - (ap (mR r) (vR x) i + vR t i)) <= 401 / 100 * uro * (aap (mR r) (vR x) i + Rabs (vR t i)) + 5 * eta).
  { intros i Hi. destruct (affine_err r t x one b Eb (near_entry2 dl r N D) (W t Ht) X16 F1 ltac:(rewrite O1, Rabs_R1; lra) i Hi) as [F E].
    fold M in F, E. fold y in F, E. cbv zeta in E. rewrite O1, Rmult_1_r in E. split; [exact F|exact E]. }
  split; [intros k Hk; apply A, Hk| ].
  destruct N as [_ Or]. pose proof (fro_175 dl _ Or D) as Fr. assert (Fr' : fro2 (tr (mR r)) <= 175 / 100 * (175 / 100)) by (rewrite fro2_tr; exact Fr).
  set (np := nrm 3 (fun k => vR p k - vR t k)). set (nt := nrm 3 (vR t)). assert (Np : 0 <= np) by apply nrm_pos. assert (Nt : 0 <= nt) by apply nrm_pos.
  set (e1 := fun i => B2R (vfun y i) - (ap (mR r) (vR x) i + vR t i)).
  set (nx := nrm 3 (vR x)).
  assert (K1 : nrm 3 e1 <= 702 / 100 * uro * nx + 401 / 100 * uro * nt + 867 / 100 * eta).
  { apply Rle_trans with (nrm 3 (fun i => (401 / 100 * uro * aap (mR r) (vR x) i + 5 * eta) + 401 / 100 * uro * Rabs (vR t i))).
    { apply nrm_mono. intros k Hk. eapply Rle_trans; [apply (A k Hk)|lra]. }
    eapply Rle_trans; [apply (nrm_plus 3 (fun i => 401 / 100 * uro * aap (mR r) (vR x) i + 5 * eta) (fun i => 401 / 100 * uro * Rabs (vR t i)))| ].
    assert (G1 : nrm 3 (fun i => 401 / 100 * uro * aap (mR r) (vR x) i + 5 * eta) <= 401 / 100 * uro * (175 / 100) * nx + 17321 / 10000 * (5 * eta)).
    { apply (err_nrm _ (mR r)); [exact Fr|lra|lra| ]. intros i Hi. rewrite Rabs_pos_eq; [lra| ]. assert (0 <= uro * aap (mR r) (vR x) i) by (apply Rmult_le_pos; [lra|apply aap_pos]). lra. }
    assert (G2 : nrm 3 (fun i => 401 / 100 * uro * Rabs (vR t i)) = 401 / 100 * uro * nt).
    { rewrite (nrm_scal 3 (401 / 100 * uro) (fun i => Rabs (vR t i))), Rabs_pos_eq by lra. f_equal. unfold nt, nrm, sq_sum. f_equal. apply sumnR_ext. intros k _.
      rewrite <- Rabs_mult. apply Rabs_pos_eq, Rle_0_sqr. }
    rewrite G2. assert (0 <= uro * nx) by (apply Rmult_le_pos; [lra|apply nrm_pos]). lra. }
  set (e2 := fun i => vR d i - (vR p i - vR t i)).
  assert (K2 : nrm 3 e2 <= uro * np).
  { apply Rle_trans with (nrm 3 (fun i => uro * (fun i => Rabs (vR p i - vR t i)) i)).
    { apply nrm_mono. intros k Hk. apply (Sd k Hk). }
    rewrite nrm_scal, Rabs_pos_eq by lra. apply Rmult_le_compat_l; [lra| ]. right. unfold np, nrm, sq_sum. f_equal. apply sumnR_ext. intros k _.
    rewrite <- Rabs_mult. apply Rabs_pos_eq, Rle_0_sqr. }
  set (n1 := nrm 3 e1) in *. set (n2 := nrm 3 e2) in *. assert (N1 : 0 <= n1) by apply nrm_pos. assert (N2 : 0 <= n2) by apply nrm_pos.
  assert (Kd : nrm 3 (vR d) <= np + n2).
  { rewrite (nrm_ext 3 _ (fun i => (vR p i - vR t i) + e2 i)) by (intros; unfold e2; ring).
    eapply Rle_trans; [apply (nrm_plus 3 (fun i => vR p i - vR t i) e2)|unfold n2, np; lra]. }
  set (nd := nrm 3 (vR d)) in *. assert (Nd : 0 <= nd) by apply nrm_pos.
  set (e3 := fun i => vR x i - ap (tr (mR r)) (vR d) i).
  assert (K3 : nrm 3 e3 <= 401 / 100 * uro * (175 / 100) * nd + 17321 / 10000 * (5 * eta)).
  { apply (err_nrm e3 (tr (mR r))); [exact Fr'|lra|lra| ]. intros i Hi. apply (X i Hi). }
  set (n3 := nrm 3 e3) in *. assert (N3 : 0 <= n3) by apply nrm_pos.
  assert (Kx : nx <= 175 / 100 * nd + n3).
  { unfold nx. rewrite (nrm_ext 3 _ (fun i => ap (tr (mR r)) (vR d) i + e3 i)) by (intros; unfold e3; ring). eapply Rle_trans; [apply nrm_plus| ].
    apply Rplus_le_compat_r. apply nrm_ap; [exact Fr'|lra]. }
  assert (K4 : nrm 3 (fun k => ap (mR r) (ap (tr (mR r)) (vR d)) k - vR d k) <= 3 * dl * nd).
  { destruct NT as [_ OT]. assert (OT' : orth dl (tr (mR r))).
    { intros i j Hi Hj. pose proof (OT i j Hi Hj) as G. unfold gram, mR in G |- *. rewrite !mfun_tr in G by lia. exact G. }
    exact (orth_back dl (tr (mR r)) (vR d) OT'). }
  assert (K5 : nrm 3 (ap (mR r) e3) <= 175 / 100 * n3) by (apply nrm_ap; [exact Fr|lra]).
  rewrite (nrm_ext 3 _ (fun k => ((ap (mR r) (ap (tr (mR r)) (vR d)) k - vR d k) + ap (mR r) e3 k) + (e1 k + e2 k))).
  2: { intros k Hk. unfold e3, e2, e1, ap. ring. }
  eapply Rle_trans; [apply (nrm_plus 3 (fun k => (ap (mR r) (ap (tr (mR r)) (vR d)) k - vR d k) + ap (mR r) e3 k) (fun k => e1 k + e2 k))| ].
  pose proof (nrm_plus 3 (fun k => ap (mR r) (ap (tr (mR r)) (vR d)) k - vR d k) (ap (mR r) e3)) as K6. cbv beta in K6.
  pose proof (nrm_plus 3 e1 e2) as K7. fold n1 n2 in K7.
  set (n4 := nrm 3 (fun k => ap (mR r) (ap (tr (mR r)) (vR d)) k - vR d k)) in *. set (n5 := nrm 3 (ap (mR r) e3)) in *.
  set (n7 := nrm 3 (fun k => e1 k + e2 k)) in *. set (n6 := nrm 3 (fun k => _ + _)) in *.
  assert (D0 : 0 <= dl) by (eapply orth_pos; exact Or).
  clearbody n1 n2 nd n3 n4 n5 n6 n7 np nt nx. clear - U P T E0 N1 N2 N3 Np Nt Nd K1 K2 Kd K3 K4 K5 K6 K7 Kx D D0.
  assert (U1 : 0 <= uro * np) by (apply Rmult_le_pos; lra). assert (U2 : 0 <= uro * nt) by (apply Rmult_le_pos; lra).
  assert (Kd' : nd <= 2049 / 2048 * np) by (assert (uro * np <= / 2048 * np) by (apply Rmult_le_compat_r; lra); lra).
  assert (U5 : uro * nd <= uro * (2049 / 2048 * np)) by (apply Rmult_le_compat_l; lra).
  assert (U6 : dl * nd <= dl * (2049 / 2048 * np)) by (apply Rmult_le_compat_l; lra).
  assert (U7 : 0 <= dl * np) by (apply Rmult_le_pos; lra).
  assert (U8 : uro * nx <= uro * (175 / 100 * nd + n3)) by (apply Rmult_le_compat_l; lra).
  assert (U9 : uro * n3 <= / 2048 * n3) by (apply Rmult_le_compat_r; lra).
  lra.
Qed.

(** the inverse matrix times the matrix *)
Lemma c92_inverse_product : forall dl (r : M33 fl) (t : V3 fl), near_rot dl r -> dl <= / 100 -> vec_le (bpow radix2 (emax - 10)) t ->
  let M := homogeneous_from_rotation r t in let Q := m44_mul (homogeneous_inverse M) M in
  (forall i j, (i < 4)%nat -> (j < 4)%nat -> is_finite (mfun Q i j) = true) /\
  (forall i j, (i < 3)%nat -> (j < 3)%nat -> Rabs (B2R (mfun Q i j) - (if Nat.eqb i j then 1 else 0)) <= dl + 42 / 10 * uro) /\
  (forall i, (i < 3)%nat -> Rabs (B2R (mfun Q i 3)) <= 12 * uro * nrm 3 (vR t) + 10 * eta) /\
  (forall j, (j < 4)%nat -> B2R (mfun Q 3 j) = if Nat.eqb j 3 then 1 else 0).
Proof.
  intros dl r t N D Ht M Q. remember (bpow radix2 (emax - 10)) as b eqn:Eb. destruct big_b as (b' & Eb' & B1 & BE). rewrite <- Eb in Eb'. subst b'.
  pose proof (uro_small Hp11) as U. pose proof (uro_pos (prec := prec)) as P. pose proof (eta_tiny Hp11 He4) as T. assert (E0 : 0 <= eta) by apply eta_pos.
  assert (O1 : B2R (one : fl) = 1) by apply Bone_correct.
  set (V := homogeneous_inverse M) in *.
  assert (EV : V = homogeneous_from_rotation (m33_transpose r) (inv_tr r t)).
  { unfold V, M. clear. destruct r as ((r00&r01&r02&[])&(r10&r11&r12&[])&(r20&r21&r22&[])&[]), t as (t0&t1&t2&[]). reflexivity. }
  set (c := inv_tr r t) in *. pose proof (inv_tr_err dl r t b Eb N D Ht) as Ic. fold c in Ic.
  assert (FQ : forall i j, (i < 4)%nat -> (j < 4)%nat -> is_finite (mfun Q i j) = true).
  { assert (Lr : forall i j, (i < 3)%nat -> (j < 3)%nat -> ufin (mfun r i j) (2, 0%nat)) by (intros i j Hi Hj; apply ufin_leaf; [apply N; assumption|apply (near_entry2 dl r N D i j Hi Hj)|lra]).
    assert (Lt : forall j, (j < 3)%nat -> ufin (vfun t j) (16 * b, 0%nat)) by (intros j Hj; destruct (Ht j Hj); apply ufin_leaf; [assumption|fold (vR t j); lra|lra]).
    assert (Lc : forall j, (j < 3)%nat -> ufin (vfun c j) (16 * b, 0%nat)) by (intros j Hj; destruct (Ic j Hj) as (Q1&Q2&_); apply ufin_leaf; [assumption|fold (vR c j); lra|lra]).
    pose proof (ufin_one (prec := prec) (emax := emax)) as L1.
    assert (L0 : ufin (zero : fl) (1, 0%nat)) by (apply ufin_leaf; [reflexivity|change (B2R (zero : fl)) with 0; rewrite Rabs_R0; lra|lra]).
    pose proof (Lr 0%nat 0%nat ltac:(lia) ltac:(lia)) as R00. pose proof (Lr 0%nat 1%nat ltac:(lia) ltac:(lia)) as R01. pose proof (Lr 0%nat 2%nat ltac:(lia) ltac:(lia)) as R02.
    pose proof (Lr 1%nat 0%nat ltac:(lia) ltac:(lia)) as R10. pose proof (Lr 1%nat 1%nat ltac:(lia) ltac:(lia)) as R11. pose proof (Lr 1%nat 2%nat ltac:(lia) ltac:(lia)) as R12.
    pose proof (Lr 2%nat 0%nat ltac:(lia) ltac:(lia)) as R20. pose proof (Lr 2%nat 1%nat ltac:(lia) ltac:(lia)) as R21. pose proof (Lr 2%nat 2%nat ltac:(lia) ltac:(lia)) as R22.
    pose proof (Lt 0%nat ltac:(lia)) as T0. pose proof (Lt 1%nat ltac:(lia)) as T1. pose proof (Lt 2%nat ltac:(lia)) as T2.
    pose proof (Lc 0%nat ltac:(lia)) as C0. pose proof (Lc 1%nat ltac:(lia)) as C1. pose proof (Lc 2%nat ltac:(lia)) as C2.
    unfold Q, M. rewrite EV. clearbody c. clear - Hp11 He4 B1 BE R00 R01 R02 R10 R11 R12 R20 R21 R22 T0 T1 T2 C0 C1 C2 L0 L1.
    revert R00 R01 R02 R10 R11 R12 R20 R21 R22 T0 T1 T2 C0 C1 C2.
    destruct r as ((r00&r01&r02&[])&(r10&r11&r12&[])&(r20&r21&r22&[])&[]), t as (t0&t1&t2&[]), c as (c0&c1&c2&[]).
    lazy [vfun mfun List.nth List.map alist fst snd]. intros R00 R01 R02 R10 R11 R12 R20 R21 R22 T0 T1 T2 C0 C1 C2 i j Hi Hj.
    destruct i as [ |[ |[ |[ |i]]]]; [ | | | |lia]; (destruct j as [ |[ |[ |[ |j]]]]; [ | | | |lia]);
    lazy [m44_mul m33_transpose homogeneous_from_rotation vfun mfun List.nth List.map alist ix0 ix1 ix2 ix3 ahd atl acons anil fst snd];
    (eapply (ufin_done Hp11 _ _ _ _ (256 * b) 100); [ufin_go|reflexivity|lra|cbn; lra|lra|lra]). }
  split; [exact FQ| ].
  assert (EE : forall i j, (i < 4)%nat -> (j < 4)%nat ->
    Rabs (B2R (mfun Q i j) - sumn 4 (fun k => B2R (mfun V i k) * B2R (mfun M k j))) <= 401 / 100 * uro * sumn 4 (fun k => Rabs (B2R (mfun V i k) * B2R (mfun M k j))) + 5 * eta).
  { intros i j Hi Hj. pose proof (c50_mul_error D4 V M i j Hi Hj (FQ i j Hi Hj)) as E. unfold err in E.
    change (d_mul D4 V M) with Q in E.
    assert (S0 : 0 <= sumn 4 (fun k => Rabs (B2R (mfun V i k) * B2R (mfun M k j)))).
    { cbn [sumn]. lazy [add zero R_Num]. pose proof (Rabs_pos (B2R (mfun V i 0) * B2R (mfun M 0 j))). pose proof (Rabs_pos (B2R (mfun V i 1) * B2R (mfun M 1 j))).
      pose proof (Rabs_pos (B2R (mfun V i 2) * B2R (mfun M 2 j))). pose proof (Rabs_pos (B2R (mfun V i 3) * B2R (mfun M 3 j))). lra. }
    eapply Rle_trans; [exact E| ]. change (dimn D4) with 4%nat.
    pose proof (pow_lin Hp11 4 (401 / 100) ltac:(cbn; lra) ltac:(lra)) as P4. pose proof (pow_mono 0 4 ltac:(lia) : _ <= _ <= (1 + uro) ^ 4) as [_ P4']. rewrite pow_O in P4'.
    set (pw := (1 + uro) ^ 4) in *. clearbody pw. set (ss := sumn 4 _) in *. clearbody ss. clear E.
    apply Rplus_le_compat; [apply Rmult_le_compat_r; lra| ]. apply Rmult_le_compat_r; [exact E0|cbn [INR]; lra]. }
  assert (Vr : forall i j, (i < 3)%nat -> (j < 3)%nat -> B2R (mfun V i j) = tr (mR r) i j).
  { intros i j Hi Hj. unfold tr, mR. rewrite EV. clear - Hi Hj. destruct r as ((r00&r01&r02&[])&(r10&r11&r12&[])&(r20&r21&r22&[])&[]).
    destruct i as [ |[ |[ |i]]]; [ | | |lia]; (destruct j as [ |[ |[ |j]]]; [reflexivity..|lia]). }
  assert (Vc : forall i, (i < 3)%nat -> B2R (mfun V i 3) = vR c i).
  { intros i Hi. unfold vR. rewrite EV. clearbody c. clear - Hi. destruct c as (c0&c1&c2&[]). destruct i as [ |[ |[ |i]]]; [reflexivity..|lia]. }
  assert (Mr : forall i j, (i < 3)%nat -> (j < 3)%nat -> B2R (mfun M i j) = mR r i j).
  { intros i j Hi Hj. unfold mR, M. clear - Hi Hj. destruct r as ((r00&r01&r02&[])&(r10&r11&r12&[])&(r20&r21&r22&[])&[]).
    destruct i as [ |[ |[ |i]]]; [ | | |lia]; (destruct j as [ |[ |[ |j]]]; [reflexivity..|lia]). }
  assert (Mt : forall i, (i < 3)%nat -> B2R (mfun M i 3) = vR t i).
  { intros i Hi. unfold vR, M. clear - Hi. destruct t as (c0&c1&c2&[]). destruct i as [ |[ |[ |i]]]; [reflexivity..|lia]. }
  assert (M3 : forall j, (j < 4)%nat -> B2R (mfun M 3 j) = if Nat.eqb j 3 then 1 else 0).
  { intros j Hj. destruct j as [ |[ |[ |[ |j]]]]; [reflexivity..|exact O1|lia]. }
  assert (V3 : forall j, (j < 4)%nat -> B2R (mfun V 3 j) = if Nat.eqb j 3 then 1 else 0).
  { intros j Hj. rewrite EV. destruct j as [ |[ |[ |[ |j]]]]; [reflexivity..|exact O1|lia]. }
  destruct N as [Fr Or].
  assert (Col : forall i, (i < 3)%nat -> nrm 3 (tr (mR r) i) <= 1005 / 1000).
  { intros i Hi. apply nrm_le; [lra| ]. pose proof (Or i i Hi Hi) as G. unfold dlt in G. rewrite Nat.eqb_refl in G. apply Rabs_le_inv in G. unfold gram in G.
    unfold sq_sum, tr. cbn [sumn]. lazy [add zero R_Num]. lra. }
  split; [ |split].
  - intros i j Hi Hj. pose proof (EE i j ltac:(lia) ltac:(lia)) as E.
    assert (S1 : sumn 4 (fun k => B2R (mfun V i k) * B2R (mfun M k j)) = gram (mR r) i j).
    { cbn [sumn]. lazy [add zero R_Num]. rewrite !Vr, !Mr, M3, Vc by lia. replace (Nat.eqb j 3) with false by (symmetry; apply Nat.eqb_neq; lia). unfold gram, tr. ring. }
    assert (S2 : sumn 4 (fun k => Rabs (B2R (mfun V i k) * B2R (mfun M k j))) = aap (tr (mR r)) (fun k => mR r k j) i).
    { cbn [sumn]. lazy [add zero R_Num]. rewrite !Vr, !Mr, M3, Vc by lia. replace (Nat.eqb j 3) with false by (symmetry; apply Nat.eqb_neq; lia).
      rewrite Rmult_0_r, Rabs_R0. unfold aap, tr. ring. }
    rewrite S1, S2 in E. pose proof (aap_row (tr (mR r)) (fun k => mR r k j) i) as A.
    pose proof (Col i Hi) as Ci. pose proof (Col j Hj) as Cj. change (nrm 3 (tr (mR r) j)) with (nrm 3 (fun k => mR r k j)) in Cj.
    pose proof (Or i j Hi Hj) as G. unfold dlt in G. set (a := aap _ _ _) in *. set (g := gram _ _ _) in *. set (qq := B2R (mfun Q i j)) in *. set (w := if Nat.eqb i j then 1 else 0) in *.
    pose proof (nrm_pos 3 (tr (mR r) i)) as Ni. pose proof (nrm_pos 3 (fun k => mR r k j)) as Nj. set (ni := nrm 3 (tr (mR r) i)) in *. set (nj := nrm 3 (fun k => mR r k j)) in *.
    clearbody a g qq w ni nj. assert (ni * nj <= 1005 / 1000 * (1005 / 1000)) by (apply Rmult_le_compat; lra).
    assert (uro * a <= uro * (1005 / 1000 * (1005 / 1000))) by (apply Rmult_le_compat_l; lra).
    clear - E G H0 P U T E0. apply Rabs_le_inv in E, G. apply Rabs_le. lra.
  - intros i Hi. pose proof (EE i 3%nat ltac:(lia) ltac:(lia)) as E. destruct (Ic i Hi) as (_ & _ & Ei).
    assert (S1 : sumn 4 (fun k => B2R (mfun V i k) * B2R (mfun M k 3)) = ap (tr (mR r)) (vR t) i + vR c i).
    { cbn [sumn]. lazy [add zero R_Num]. rewrite !Vr, !Mt, M3, Vc by lia. cbn [Nat.eqb]. unfold ap. ring. }
    assert (S2 : sumn 4 (fun k => Rabs (B2R (mfun V i k) * B2R (mfun M k 3))) = aap (tr (mR r)) (vR t) i + Rabs (vR c i)).
    { cbn [sumn]. lazy [add zero R_Num]. rewrite !Vr, !Mt, M3, Vc by lia. cbn [Nat.eqb]. rewrite Rmult_1_r. unfold aap. ring. }
    rewrite S1, S2 in E. pose proof (aap_row (tr (mR r)) (vR t) i) as A. pose proof (ap_aap (tr (mR r)) (vR t) i) as A'. pose proof (aap_pos (tr (mR r)) (vR t) i) as A0.
    pose proof (Col i Hi) as Ci. pose proof (nrm_pos 3 (vR t)) as Nt. set (nt := nrm 3 (vR t)) in *. set (ni := nrm 3 (tr (mR r) i)) in *.
    set (a := ap _ _ _) in *. set (aa := aap _ _ _) in *. set (ci := vR c i) in *. set (qq := B2R (mfun Q i 3)) in *. clearbody a aa ci qq nt ni.
    assert (A1 : aa <= 1005 / 1000 * nt) by (eapply Rle_trans; [exact A|apply Rmult_le_compat_r; lra]).
    assert (U1 : 0 <= uro * aa) by (apply Rmult_le_pos; lra). assert (U2 : uro * aa <= / 2048 * aa) by (apply Rmult_le_compat_r; lra).
    assert (Cb : Rabs ci <= 1002 / 1000 * aa + 4 * eta).
    { clear - Ei A' U2 U1. apply Rabs_le_inv in Ei, A'. apply Rabs_le. lra. }
    assert (U3 : uro * Rabs ci <= uro * (1002 / 1000 * aa + 4 * eta)) by (apply Rmult_le_compat_l; lra).
    assert (U4 : uro * eta <= / 2048 * eta) by (apply Rmult_le_compat_r; lra). assert (U5 : uro * aa <= uro * (1005 / 1000 * nt)) by (apply Rmult_le_compat_l; lra).
    clear - E Ei U1 U3 U4 U5 E0 P Nt. assert (0 <= uro * nt) by (apply Rmult_le_pos; lra). apply Rabs_le_inv in E, Ei. apply Rabs_le. lra.
  - intros j Hj. pose proof (FQ 3%nat j ltac:(lia) Hj) as F.
    assert (E : mfun Q 3 j = dotl 4 (fun k => mfun V 3 k) (fun k => mfun M k j)) by exact (d_mul_dotl D4 V M 3 j ltac:(cbn; lia) Hj).
    rewrite E in F |- *. cbn [dotl] in F |- *. lazy [add mul F_Num] in F |- *.
    destruct (plus_finite _ _ F) as (F1 & G3 & ->). destruct (plus_finite _ _ F1) as (F2 & G2 & ->). destruct (plus_finite _ _ F2) as (G0 & G1 & ->).
    destruct (mult_finite _ _ G0) as (_ & _ & ->). destruct (mult_finite _ _ G1) as (_ & _ & ->). destruct (mult_finite _ _ G2) as (_ & _ & ->). destruct (mult_finite _ _ G3) as (_ & _ & ->).
    rewrite !V3 by lia. cbn [Nat.eqb]. rewrite !Rmult_0_l, Rmult_1_l, !round_0 by apply valid_rnd_N. rewrite !Rplus_0_l, !round_0 by apply valid_rnd_N. rewrite !Rplus_0_l, !round_0 by apply valid_rnd_N. rewrite Rplus_0_l.
    rewrite round_generic; [ |apply valid_rnd_N|apply generic_format_round; [apply FLT_exp_valid; exact Hp|apply valid_rnd_N]].
    rewrite round_generic; [apply M3, Hj|apply valid_rnd_N|apply format_B2R].
Qed.

(** the rotation matrix of a nearly unit quaternion qualifies, rows and columns *)
Lemma rot_gram_rows (A : nat -> R) i j : (i < 3)%nat -> (j < 3)%nat ->
  rot_exact A i 0 * rot_exact A j 0 + rot_exact A i 1 * rot_exact A j 1 + rot_exact A i 2 * rot_exact A j 2 = if Nat.eqb i j then sq_sum 4 A ^ 2 else 0.
Proof.
  intros Hi Hj. destruct i as [ |[ |[ |i]]]; [ | | |lia]; (destruct j as [ |[ |[ |j]]]; [ | | |lia]);
  lazy [rot_exact hamilton h4 h4conj comp4 e4 sq_sum sumn add sub mul one zero R_Num Nat.eqb]; ring.
Qed.

Lemma c92_quaternion : forall dl (a : Quaternion fl), near_unit dl a -> dl <= / 1000 ->
  near_rot (405 / 100 * dl + 25 * uro) (q_to_rotation a) /\ near_rot (405 / 100 * dl + 25 * uro) (m33_transpose (q_to_rotation a)).
Proof.
  intros dl a Ha D. pose proof (near_sq dl a Ha ltac:(lra)) as Q. assert (D0 : 0 <= dl) by (destruct Ha as [_ Ha]; eapply Rle_trans; [apply Rabs_pos|exact Ha]).
  pose proof (uro_small Hp11) as U. pose proof (uro_pos (prec := prec)) as P.
  assert (FR : forall i j, (i < 3)%nat -> (j < 3)%nat -> is_finite (mfun (q_to_rotation a) i j) = true) by (intros i j Hi Hj; apply (rot_entry_err Hp11 He4 dl a i j Ha ltac:(lra) Hi Hj)).
  split; split.
  - exact FR.
  - intros i j Hi Hj. destruct (c87_unit_rotation Hp11 He4 a (201 / 100 * dl) ltac:(lra) (proj1 Ha) Q) as (_ & G & _).
    eapply Rle_trans; [exact (G i j Hi Hj)|lra].
  - intros i j Hi Hj. rewrite mfun_tr by assumption. apply FR; assumption.
  - intros i j Hi Hj. unfold gram, mR. rewrite !mfun_tr by lia.
    set (N := sq_sum 4 (qR a)) in *. set (X := fun i j => B2R (mfun (q_to_rotation a) i j)). set (e := 41 / 10 * uro).
    assert (Nb : 99 / 100 <= N <= 101 / 100) by (apply Rabs_le_inv in Q; lra).
    assert (B : forall k, (k < 3)%nat -> Rabs (X i k * X j k - rot_exact (qR a) i k * rot_exact (qR a) j k) <= 2 * N * e + e * e).
    { intros k Hk. apply prod_pert; try (apply rot_bound; assumption); apply (rot_entry_err Hp11 He4 dl a); try assumption; lra. }
    pose proof (B 0%nat ltac:(lia)) as B0. pose proof (B 1%nat ltac:(lia)) as B1. pose proof (B 2%nat ltac:(lia)) as B2. clear B.
    pose proof (rot_gram_rows (qR a) i j Hi Hj) as G. fold N in G. unfold dlt.
    change (Rabs (X i 0%nat * X j 0%nat + X i 1%nat * X j 1%nat + X i 2%nat * X j 2%nat - (if Nat.eqb i j then 1 else 0)) <= 405 / 100 * dl + 25 * uro).
    set (x0 := X i 0%nat * X j 0%nat) in *. set (x1 := X i 1%nat * X j 1%nat) in *. set (x2 := X i 2%nat * X j 2%nat) in *.
    set (y0 := rot_exact (qR a) i 0 * rot_exact (qR a) j 0) in *. set (y1 := rot_exact (qR a) i 1 * rot_exact (qR a) j 1) in *. set (y2 := rot_exact (qR a) i 2 * rot_exact (qR a) j 2) in *.
    assert (Dn : Rabs ((y0 + y1 + y2) - (if Nat.eqb i j then 1 else 0)) <= 201 / 100 * (201 / 100 * dl)).
    { rewrite G. destruct (Nat.eqb i j); [ |rewrite Rminus_0_r, Rabs_R0; lra]. replace (N ^ 2 - 1) with ((N + 1) * (N - 1)) by ring. rewrite Rabs_mult.
      apply Rmult_le_compat; try apply Rabs_pos; [rewrite Rabs_pos_eq; lra|exact Q]. }
    assert (W : 2 * N * e + e * e <= 8292 / 1000 * uro).
    { unfold e. assert (N * uro <= 101 / 100 * uro) by (apply Rmult_le_compat_r; lra). assert (uro * uro <= / 2048 * uro) by (apply Rmult_le_compat_r; lra). lra. }
    set (w := 2 * N * e + e * e) in *. set (ww := if Nat.eqb i j then 1 else 0) in *. clearbody w ww x0 x1 x2 y0 y1 y2. clear - B0 B1 B2 Dn W P D0.
    apply Rabs_le_inv in B0, B1, B2, Dn. apply Rabs_le. lra.
Qed.
End F.

#[local] Instance prec53 : Prec_gt_0 53 := eq_refl.
#[local] Instance emax1024 : Prec_lt_emax 53 1024 := eq_refl.
#[local] Notation f64 := (binary_float 53 1024).

(** [homogeneous_inverse_transform] multiplies the translation of the inverse matrix by zero. When that translation
    overflows the result is NaN, although the point is the origin of the moved frame and its image is zero *)
Lemma c92_inverse_transform_refuted : forall O : FOracle f64, exists (r : M33 f64) (t : V3 f64),
  is_rotation r = true /\ (forall k, (k < 3)%nat -> is_finite (vfun t k) = true) /\
  v3_sub t t = [| zero; zero; zero |] /\
  vfun (homogeneous_inverse_transform (homogeneous_from_rotation r t) t) 0 = B754_nan.
Proof.
  intros O. set (a := Bdiv mode_NE (fofZ 3) (fofZ 5) : f64). set (b := Bdiv mode_NE (fofZ 4) (fofZ 5) : f64). set (m := Bmult mode_NE (fofZ 3) (p2 1022) : f64).
  exists [| [| a; Bopp b; zero |]; [| b; a; zero |]; [| zero; zero; one |] |], [| m; m; zero |].
  split; [vm_compute; reflexivity|split; [ |split]].
  - intros k Hk. destruct k as [ |[ |[ |k]]]; [vm_compute; reflexivity..|lia].
  - unfold v3_sub. repeat f_equal; apply B2SF_inj; vm_compute; reflexivity.
  - rewrite hit_eq. apply B2SF_inj. vm_compute. reflexivity.
Qed.

Example C92_case : forall O : FOracle f64, exists b : Quaternion f64, q_normalize (q_new (fofZ 3) [| fofZ 4; fofZ (-2); fofZ 1 |]) = Some b /\
  let p := [| fofZ 4; fofZ 5; fofZ 6 |] : V3 f64 in let t := [| fofZ 1; fofZ (-2); fofZ 3 |] : V3 f64 in
  let M := homogeneous_from_quaternion b t in let y := m44_mul_v M [| p.[0]; p.[1]; p.[2]; one |] in
  forall k, (k < 3)%nat -> Rabs (vR (homogeneous_inverse_transform M [| y.[0]; y.[1]; y.[2] |]) k - vR p k) <= / 1000000000000.
Proof.
  intros O. set (a := q_new (fofZ 3 : f64) [| fofZ 4; fofZ (-2); fofZ 1 |]).
  assert (N : match q_normalize a with Some _ => true | None => false end = true) by (vm_compute; reflexivity).
  destruct (q_normalize a) as [b| ] eqn:E; [ |discriminate]. exists b. split; [reflexivity| ].
  assert (Nb : near_unit (9 * uro (prec := 53)) b) by (apply (c91_normalize_near (prec := 53) (emax := 1024) ltac:(lia) ltac:(lia) a b eq_refl); [vm_compute; reflexivity|exact E]).
  assert (Uv : uro (prec := 53) = bpow radix2 (-53)) by (unfold uro; change (1 - 53)%Z with (1 + - 53)%Z; rewrite bpow_plus; change (bpow radix2 1) with 2; lra).
  assert (Ub : uro (prec := 53) <= / 8000000000000000) by (rewrite Uv; cbn; lra). assert (U0 : 0 < uro (prec := 53)) by apply FloatFacts.uro_pos.
  destruct (c92_quaternion (prec := 53) (emax := 1024) ltac:(lia) ltac:(lia) _ b Nb ltac:(lra)) as [R1 _].
  intros p t M y. pose proof (c92_round_trip (prec := 53) (emax := 1024) ltac:(lia) ltac:(lia) _ (q_to_rotation b) t p R1 ltac:(lra)) as G.
  assert (Vp : forall z, (Z.abs z <= 10)%Z -> B2R (fofZ z : f64) = IZR z) by (intros z Hz; apply fofZ_int; lia).
  assert (Fp : forall z, (Z.abs z <= 10)%Z -> is_finite (fofZ z : f64) = true) by (intros z Hz; apply fofZ_int; lia).
  assert (B10 : 10 <= bpow radix2 (1024 - 10)) by (apply Rle_trans with (bpow radix2 4); [cbn; lra|apply bpow_le; lia]).
  assert (VL : forall x y z, (Z.abs x <= 10)%Z -> (Z.abs y <= 10)%Z -> (Z.abs z <= 10)%Z -> vec_le (bpow radix2 (1024 - 10)) ([| fofZ x; fofZ y; fofZ z |] : V3 f64)).
  { assert (K : forall x, (Z.abs x <= 10)%Z -> is_finite (fofZ x : f64) = true /\ Rabs (B2R (fofZ x : f64)) <= bpow radix2 (1024 - 10)).
    { intros x Hx. split; [apply Fp, Hx| ]. rewrite Vp by exact Hx. rewrite <- abs_IZR. eapply Rle_trans; [apply IZR_le, Hx|exact B10]. }
    intros x y' z Hx Hy Hz k Hk. destruct k as [ |[ |[ |k]]]; [apply K, Hx|apply K, Hy|apply K, Hz|lia]. }
  destruct (G (VL 1 (-2) 3 ltac:(lia) ltac:(lia) ltac:(lia))%Z (VL 4 5 6 ltac:(lia) ltac:(lia) ltac:(lia))%Z) as [_ G2].
  intros k Hk. eapply Rle_trans; [apply (comp_nrm 3 (fun k => vR (homogeneous_inverse_transform M [| y.[0]; y.[1]; y.[2] |]) k - vR p k) k Hk)| ].
  eapply Rle_trans; [exact G2| ].
  assert (n1 : nrm 3 (vR p) <= 10).
  { apply nrm_le; [lra| ]. change (sq_sum 3 (vR p)) with (0 + B2R (fofZ 4 : f64) * B2R (fofZ 4 : f64) + B2R (fofZ 5 : f64) * B2R (fofZ 5 : f64) + B2R (fofZ 6 : f64) * B2R (fofZ 6 : f64)). rewrite !Vp by lia. lra. }
  assert (n2 : nrm 3 (vR t) <= 10).
  { apply nrm_le; [lra| ]. change (sq_sum 3 (vR t)) with (0 + B2R (fofZ 1 : f64) * B2R (fofZ 1 : f64) + B2R (fofZ (-2) : f64) * B2R (fofZ (-2) : f64) + B2R (fofZ 3 : f64) * B2R (fofZ 3 : f64)). rewrite !Vp by lia. lra. }
  pose proof (eta_tiny (prec := 53) (emax := 1024) ltac:(lia) ltac:(lia)) as T. pose proof (nrm_pos 3 (vR p)). pose proof (nrm_pos 3 (vR t)).
  set (u := uro (prec := 53)) in *. set (et := FloatFacts.eta) in *. set (a1 := nrm 3 (vR p)) in *. set (a2 := nrm 3 (vR t)) in *. clearbody u et a1 a2.
  clear - Ub U0 n1 n2 T H H0.
  assert (u * a1 <= u * 10) by (apply Rmult_le_compat_l; lra). assert (u * a2 <= u * 10) by (apply Rmult_le_compat_l; lra). lra.
Qed.

(** the same motion, back and forth, and the product with the inverse matrix *)
Example C92_case_back : forall O : FOracle f64, exists b : Quaternion f64, q_normalize (q_new (fofZ 3) [| fofZ 4; fofZ (-2); fofZ 1 |]) = Some b /\
  let p := [| fofZ 4; fofZ 5; fofZ 6 |] : V3 f64 in let t := [| fofZ 1; fofZ (-2); fofZ 3 |] : V3 f64 in
  let M := homogeneous_from_quaternion b t in let x := homogeneous_inverse_transform M p in
  (forall k, (k < 3)%nat -> is_finite (vfun (m44_mul_v M [| x.[0]; x.[1]; x.[2]; one |]) k) = true) /\
  (forall i j, (i < 3)%nat -> (j < 3)%nat -> Rabs (B2R (mfun (m44_mul (homogeneous_inverse M) M) i j) - (if Nat.eqb i j then 1 else 0)) <= / 1000000000000).
Proof.
  intros O. set (a := q_new (fofZ 3 : f64) [| fofZ 4; fofZ (-2); fofZ 1 |]).
  assert (N : match q_normalize a with Some _ => true | None => false end = true) by (vm_compute; reflexivity).
  destruct (q_normalize a) as [b| ] eqn:E; [ |discriminate]. exists b. split; [reflexivity| ].
  assert (Nb : near_unit (9 * uro (prec := 53)) b) by (apply (c91_normalize_near (prec := 53) (emax := 1024) ltac:(lia) ltac:(lia) a b eq_refl); [vm_compute; reflexivity|exact E]).
  assert (Uv : uro (prec := 53) = bpow radix2 (-53)) by (unfold uro; change (1 - 53)%Z with (1 + - 53)%Z; rewrite bpow_plus; change (bpow radix2 1) with 2; lra).
  assert (Ub : uro (prec := 53) <= / 8000000000000000) by (rewrite Uv; cbn; lra). assert (U0 : 0 < uro (prec := 53)) by apply FloatFacts.uro_pos.
  destruct (c92_quaternion (prec := 53) (emax := 1024) ltac:(lia) ltac:(lia) _ b Nb ltac:(lra)) as [R1 R2].
  assert (B10 : 10 <= bpow radix2 (1024 - 10)) by (apply Rle_trans with (bpow radix2 4); [cbn; lra|apply bpow_le; lia]).
  assert (VL : forall x y z, (Z.abs x <= 10)%Z -> (Z.abs y <= 10)%Z -> (Z.abs z <= 10)%Z -> vec_le (bpow radix2 (1024 - 10)) ([| fofZ x; fofZ y; fofZ z |] : V3 f64)).
  { assert (K : forall x, (Z.abs x <= 10)%Z -> is_finite (fofZ x : f64) = true /\ Rabs (B2R (fofZ x : f64)) <= bpow radix2 (1024 - 10)).
    { intros x Hx. split; [apply fofZ_int; lia| ]. replace (B2R (fofZ x : f64)) with (IZR x) by (symmetry; apply fofZ_int; lia). rewrite <- abs_IZR. eapply Rle_trans; [apply IZR_le, Hx|exact B10]. }
    intros x y' z Hx Hy Hz k Hk. destruct k as [ |[ |[ |k]]]; [apply K, Hx|apply K, Hy|apply K, Hz|lia]. }
  intros p t M x. pose proof (VL 1 (-2) 3 ltac:(lia) ltac:(lia) ltac:(lia))%Z as Ht. pose proof (VL 4 5 6 ltac:(lia) ltac:(lia) ltac:(lia))%Z as Hp0. split.
  - apply (c92_round_trip_back (prec := 53) (emax := 1024) ltac:(lia) ltac:(lia) _ (q_to_rotation b) t p R1 R2 ltac:(lra) Ht Hp0).
  - intros i j Hi Hj. destruct (c92_inverse_product (prec := 53) (emax := 1024) ltac:(lia) ltac:(lia) _ (q_to_rotation b) t R1 ltac:(lra) Ht) as (_ & G & _).
    eapply Rle_trans; [exact (G i j Hi Hj)|lra].
Qed.
