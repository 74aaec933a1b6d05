(** * ProofsFloatAngles: rotations built from angles on floats (C96) *)

From Coq Require Import List Arith ZArith Reals Bool Lra Lia.
From Flocq Require Import Core Relative Sterbenz Mult_error IEEE754.BinarySingleNaN.
From Verif Require Import Base Scalar Vec Mat2 Mat3 Mat4 Mat5 Mat6 Slices MatLoops MatOps Quat Transf DualQuat RingDet Spec LoopFacts Entries InstZ InstR RFacts LUFacts QRFacts ProofsRing ProofsQuat ProofsRot ProofsRigid InstF FloatFacts ProofsFloat ProofsFloat2 ProofsFloatErr ProofsFloatInv ProofsFloatNorm ProofsFloatRot ProofsFloatDrift ProofsFloatRigid ProofsFloatDQ ProofsFloatFromRot ProofsFloatQR ExpSeries ProofsExp.
Local Open Scope R_scope.

(** ** the Frobenius norm of 3 by 3 matrices *)
Definition fnorm (X : nat -> nat -> R) : R := nrm 9 (fun k => X (k / 3)%nat (k mod 3)%nat).
Definition mm (X Y : nat -> nat -> R) (i j : nat) : R := X i 0%nat * Y 0%nat j + X i 1%nat * Y 1%nat j + X i 2%nat * Y 2%nat j.

Ltac ij i j Hi Hj := destruct i as [ |[ |[ |i]]]; [ | | |lia]; (destruct j as [ |[ |[ |j]]]; [ | | |lia]).

Lemma fnorm_fro X : fnorm X * fnorm X = fro2 X.
Proof. unfold fnorm. rewrite nrm_sq. unfold fro2, sq_sum. lazy [sumn add mul zero R_Num Nat.div Nat.modulo Nat.divmod fst snd Nat.sub]. ring. Qed.
Lemma fnorm_pos X : 0 <= fnorm X. Proof. apply nrm_pos. Qed.
Lemma fnorm_le X b : 0 <= b -> fro2 X <= b * b -> fnorm X <= b.
Proof. intros B H. rewrite <- fnorm_fro in H. pose proof (fnorm_pos X). nra. Qed.
Lemma fro2_ext X Y : (forall i j, (i < 3)%nat -> (j < 3)%nat -> X i j = Y i j) -> fro2 X = fro2 Y.
Proof. intros H. unfold fro2, sq_sum. lazy [sumn add mul zero R_Num]. rewrite !H by lia. reflexivity. Qed.
Lemma fnorm_ext X Y : (forall i j, (i < 3)%nat -> (j < 3)%nat -> X i j = Y i j) -> fnorm X = fnorm Y.
Proof. intros H. pose proof (fro2_ext X Y H) as E. rewrite <- !fnorm_fro in E. pose proof (fnorm_pos X). pose proof (fnorm_pos Y). nra. Qed.
Lemma fnorm_plus X Y : fnorm (fun i j => X i j + Y i j) <= fnorm X + fnorm Y.
Proof. unfold fnorm. apply nrm_plus. Qed.
Lemma fnorm_entry X i j : (i < 3)%nat -> (j < 3)%nat -> Rabs (X i j) <= fnorm X.
Proof.
  intros Hi Hj. pose proof (comp_nrm 9 (fun k => X (k / 3)%nat (k mod 3)%nat) (3 * i + j) ltac:(lia)) as C. cbv beta in C.
  revert C. ij i j Hi Hj; intros C; exact C.
Qed.
Lemma fnorm_all X b : 0 <= b -> (forall i j, (i < 3)%nat -> (j < 3)%nat -> Rabs (X i j) <= b) -> fnorm X <= 3 * b.
Proof.
  intros B H. apply fnorm_le; [lra| ]. assert (S : forall i j, (i < 3)%nat -> (j < 3)%nat -> X i j * X i j <= b * b).
  { intros i j Hi Hj. specialize (H i j Hi Hj). apply Rabs_le_inv in H. nra. }
  unfold fro2, sq_sum. lazy [sumn add mul zero R_Num].
  pose proof (S 0 0 ltac:(lia) ltac:(lia))%nat. pose proof (S 0 1 ltac:(lia) ltac:(lia))%nat. pose proof (S 0 2 ltac:(lia) ltac:(lia))%nat.
  pose proof (S 1 0 ltac:(lia) ltac:(lia))%nat. pose proof (S 1 1 ltac:(lia) ltac:(lia))%nat. pose proof (S 1 2 ltac:(lia) ltac:(lia))%nat.
  pose proof (S 2 0 ltac:(lia) ltac:(lia))%nat. pose proof (S 2 1 ltac:(lia) ltac:(lia))%nat. pose proof (S 2 2 ltac:(lia) ltac:(lia))%nat. lra.
Qed.

(** the norm is submultiplicative, also entry by entry in absolute value *)
Lemma fnorm_aap X Y : fnorm (fun i j => aap X (fun k => Y k j) i) <= fnorm X * fnorm Y.
Proof.
  pose proof (fnorm_pos X) as PX. pose proof (fnorm_pos Y) as PY.
  apply fnorm_le; [nra| ]. replace (fnorm X * fnorm Y * (fnorm X * fnorm Y)) with (fnorm X * fnorm X * (fnorm Y * fnorm Y)) by ring. rewrite !fnorm_fro.
  assert (B : forall i j, aap X (fun k => Y k j) i * aap X (fun k => Y k j) i <= sq_sum 3 (X i) * sq_sum 3 (fun k => Y k j)).
  { intros i j. pose proof (aap_row X (fun k => Y k j) i) as A. pose proof (aap_pos X (fun k => Y k j) i) as A0.
    rewrite <- (nrm_sq 3 (X i)), <- (nrm_sq 3 (fun k => Y k j)). pose proof (nrm_pos 3 (X i)). pose proof (nrm_pos 3 (fun k => Y k j)).
    replace (nrm 3 (X i) * nrm 3 (X i) * (nrm 3 (fun k => Y k j) * nrm 3 (fun k => Y k j))) with ((nrm 3 (X i) * nrm 3 (fun k => Y k j)) * (nrm 3 (X i) * nrm 3 (fun k => Y k j))) by ring.
    apply Rmult_le_compat; assumption. }
  unfold fro2. lazy [sumn add mul zero R_Num sq_sum] in B |- *.
  pose proof (B 0 0)%nat. pose proof (B 0 1)%nat. pose proof (B 0 2)%nat. pose proof (B 1 0)%nat. pose proof (B 1 1)%nat. pose proof (B 1 2)%nat.
  pose proof (B 2 0)%nat. pose proof (B 2 1)%nat. pose proof (B 2 2)%nat. clear B. lra.
Qed.
Lemma fnorm_mono X Y : (forall i j, (i < 3)%nat -> (j < 3)%nat -> Rabs (X i j) <= Y i j) -> fnorm X <= fnorm Y.
Proof.
  intros H. unfold fnorm. apply nrm_mono. intros k Hk. apply H.
  - apply Nat.div_lt_upper_bound; lia.
  - apply Nat.mod_upper_bound. lia.
Qed.
Lemma fnorm_mm X Y : fnorm (mm X Y) <= fnorm X * fnorm Y.
Proof. eapply Rle_trans; [ |apply fnorm_aap]. apply fnorm_mono. intros i j _ _. exact (ap_aap X (fun k => Y k j) i). Qed.
Lemma fnorm_scal c X : fnorm (fun i j => c * X i j) = Rabs c * fnorm X.
Proof. unfold fnorm. apply nrm_scal. Qed.

(** multiplying by an orthogonal matrix leaves it unchanged *)
Definition orthR (X : nat -> nat -> R) : Prop := (forall i j, (i < 3)%nat -> (j < 3)%nat -> gram X i j = dlt i j) /\ (forall i j, (i < 3)%nat -> (j < 3)%nat -> gram (tr X) i j = dlt i j).
Lemma SO3_orth (r : M33 R) : SO3 r -> orthR (mfun r).
Proof.
  intros (A & B & _). split; intros i j Hi Hj.
  - apply (f_equal (fun m => mfun m i j)) in A. revert A. destruct r as ((r00&r01&r02&[])&(r10&r11&r12&[])&(r20&r21&r22&[])&[]).
    ij i j Hi Hj; lazy -[Rplus Rmult Ropp Rminus]; intros A; rewrite <- A; ring.
  - apply (f_equal (fun m => mfun m i j)) in B. revert B. destruct r as ((r00&r01&r02&[])&(r10&r11&r12&[])&(r20&r21&r22&[])&[]).
    ij i j Hi Hj; lazy -[Rplus Rmult Ropp Rminus]; intros B; rewrite <- B; ring.
Qed.
Lemma fnorm_right X Y : orthR Y -> fnorm (mm X Y) = fnorm X.
Proof.
  intros [_ H]. assert (E : fro2 (mm X Y) = fro2 X).
  { assert (Q : fro2 (mm X Y) = sumn 3 (fun i => sumn 3 (fun k => sumn 3 (fun l => X i k * X i l * gram (tr Y) k l)))).
    { unfold fro2, sq_sum, mm, gram, tr. lazy [sumn add mul zero R_Num]. ring. }
    rewrite Q. unfold fro2, sq_sum. lazy [sumn add mul zero R_Num]. rewrite !H by lia. unfold dlt. cbn [Nat.eqb]. ring. }
  rewrite <- !fnorm_fro in E. pose proof (fnorm_pos X). pose proof (fnorm_pos (mm X Y)). nra.
Qed.
Lemma fnorm_left X Y : orthR X -> fnorm (mm X Y) = fnorm Y.
Proof.
  intros [H _]. assert (E : fro2 (mm X Y) = fro2 Y).
  { assert (Q : fro2 (mm X Y) = sumn 3 (fun j => sumn 3 (fun k => sumn 3 (fun l => Y k j * Y l j * gram X k l)))).
    { unfold fro2, sq_sum, mm, gram. lazy [sumn add mul zero R_Num]. ring. }
    rewrite Q. unfold fro2, sq_sum. lazy [sumn add mul zero R_Num]. rewrite !H by lia. unfold dlt. cbn [Nat.eqb]. ring. }
  rewrite <- !fnorm_fro in E. pose proof (fnorm_pos Y). pose proof (fnorm_pos (mm X Y)). nra.
Qed.
Lemma fnorm_orth X : orthR X -> fnorm X * fnorm X = 3.
Proof.
  intros [H _]. rewrite fnorm_fro. replace (fro2 X) with (gram X 0 0 + gram X 1 1 + gram X 2 2) by (unfold fro2, sq_sum, gram; lazy [sumn add mul zero R_Num]; ring).
  rewrite !H by lia. unfold dlt. cbn [Nat.eqb]. ring.
Qed.
Lemma orth_entry X i j : orthR X -> (i < 3)%nat -> (j < 3)%nat -> Rabs (X i j) <= 1.
Proof.
  intros [H _] Hi Hj. specialize (H j j Hj Hj). unfold gram, dlt in H. rewrite Nat.eqb_refl in H. apply Rabs_le.
  destruct i as [ |[ |[ |i]]]; [ | | |lia]; nra.
Qed.

Definition dst (X Y : nat -> nat -> R) : R := fnorm (fun i j => X i j - Y i j).
Lemma dst_pos X Y : 0 <= dst X Y. Proof. apply fnorm_pos. Qed.
(** products of matrices close to orthogonal ones *)
Lemma mm_dst X X' Y Y' : orthR X' -> orthR Y' -> dst (mm X Y) (mm X' Y') <= dst X X' + dst Y Y' + dst X X' * dst Y Y'.
Proof.
  intros HX HY. unfold dst. set (D := fun i j => X i j - X' i j). set (D' := fun i j => Y i j - Y' i j).
  assert (E : fnorm (fun i j => mm X Y i j - mm X' Y' i j) = fnorm (fun i j => (mm D Y' i j + mm X' D' i j) + mm D D' i j)).
  { apply fnorm_ext. intros i j _ _. unfold mm, D, D'. ring. }
  rewrite E. eapply Rle_trans; [apply (fnorm_plus (fun i j => mm D Y' i j + mm X' D' i j) (mm D D'))| ].
  pose proof (fnorm_plus (mm D Y') (mm X' D')) as T. pose proof (fnorm_mm D D') as T2. rewrite (fnorm_right D Y' HY) in T. rewrite (fnorm_left X' D' HX) in T. lra.
Qed.
Lemma dst_tri X Y Z : dst X Z <= dst X Y + dst Y Z.
Proof.
  unfold dst. eapply Rle_trans; [ |apply fnorm_plus]. right. apply fnorm_ext. intros i j _ _. ring.
Qed.
Lemma fnorm_abs X : fnorm (fun i j => Rabs (X i j)) = fnorm X.
Proof. unfold fnorm, nrm, sq_sum. f_equal. lazy [sumn add mul zero R_Num]. rewrite <- !Rabs_mult. rewrite !Rabs_pos_eq by nra. reflexivity. Qed.
Lemma fnorm_dst X Y : fnorm X <= fnorm Y + dst X Y.
Proof.
  unfold dst. rewrite (fnorm_ext X (fun i j => Y i j + (X i j - Y i j))) by (intros; ring). apply (fnorm_plus Y (fun i j => X i j - Y i j)).
Qed.
Lemma fnorm_near X Y : orthR Y -> fnorm X <= 17321 / 10000 + dst X Y.
Proof.
  intros H. pose proof (fnorm_orth Y H) as E. pose proof (fnorm_pos Y) as P.
  assert (fnorm X <= fnorm (fun i j => X i j - Y i j) + fnorm Y).
  { eapply Rle_trans; [ |apply fnorm_plus]. right. apply fnorm_ext. intros i j _ _. ring. }
  assert (fnorm Y <= 17321 / 10000) by nra. unfold dst. lra.
Qed.
(** a matrix close to an orthogonal one is nearly orthogonal *)
Lemma orth_near X Y : orthR Y -> orth (2 * dst X Y + dst X Y * dst X Y) X.
Proof.
  intros H i j Hi Hj. set (D := fun i j => X i j - Y i j).
  assert (E : gram X i j - dlt i j = mm (tr D) Y i j + mm (tr Y) D i j + mm (tr D) D i j).
  { destruct H as [H _]. rewrite <- (H i j Hi Hj). unfold gram, mm, tr, D. ring. }
  rewrite E. assert (HT : orthR (tr Y)) by (destruct H as [H1 H2]; split; intros a b Ha Hb; [exact (H2 a b Ha Hb)|exact (H1 a b Ha Hb)]).
  pose proof (fnorm_entry (mm (tr D) Y) i j Hi Hj) as A1. rewrite (fnorm_right _ _ H) in A1.
  pose proof (fnorm_entry (mm (tr Y) D) i j Hi Hj) as A2. rewrite (fnorm_left _ _ HT) in A2.
  pose proof (fnorm_entry (mm (tr D) D) i j Hi Hj) as A3. pose proof (fnorm_mm (tr D) D) as A4.
  assert (TT : fnorm (tr D) = fnorm D).
  { pose proof (fro2_tr D) as F. rewrite <- !fnorm_fro in F. pose proof (fnorm_pos D). pose proof (fnorm_pos (tr D)). nra. }
  rewrite TT in *. change (dst X Y) with (fnorm D). eapply Rle_trans; [apply Rabs_triang| ]. eapply Rle_trans; [apply Rplus_le_compat_r, Rabs_triang| ]. lra.
Qed.

(** ** sine and cosine *)
Lemma sin_abs t : Rabs (sin t) <= Rabs t.
Proof.
  assert (P : forall t, 0 < t -> Rabs (sin t) <= t).
  { intros x Hx. destruct (Rle_lt_dec 1 x) as [L|L].
    - pose proof (SIN_bound x). apply Rabs_le. lra.
    - pose proof (sin_lt_x x Hx). pose proof PI2_1. assert (0 <= sin x) by (apply sin_ge_0; lra). rewrite Rabs_pos_eq by assumption. lra. }
  destruct (Rtotal_order t 0) as [L|[L|L]].
  - rewrite (Rabs_left t L). rewrite <- (Rabs_Ropp (sin t)), <- sin_neg. apply P. lra.
  - subst t. rewrite sin_0, Rabs_R0. lra.
  - rewrite (Rabs_pos_eq t) by lra. apply P, L.
Qed.
Lemma sin_lip x y : Rabs (sin x - sin y) <= Rabs (x - y).
Proof.
  rewrite form4, !Rabs_mult, (Rabs_pos_eq 2) by lra. pose proof (sin_abs ((x - y) / 2)) as A. pose proof (COS_bound ((x + y) / 2)) as B.
  assert (B' : Rabs (cos ((x + y) / 2)) <= 1) by (apply Rabs_le; lra). unfold Rdiv in A at 2. rewrite Rabs_mult, (Rabs_pos_eq (/ 2)) in A by lra.
  pose proof (Rabs_pos (cos ((x + y) / 2))). pose proof (Rabs_pos (sin ((x - y) / 2))). nra.
Qed.
Lemma cos_lip x y : Rabs (cos x - cos y) <= Rabs (x - y).
Proof.
  rewrite form2, !Rabs_mult, (Rabs_left (-2)) by lra. pose proof (sin_abs ((x - y) / 2)) as A. pose proof (SIN_bound ((x + y) / 2)) as B.
  assert (B' : Rabs (sin ((x + y) / 2)) <= 1) by (apply Rabs_le; lra). unfold Rdiv in A at 2. rewrite Rabs_mult, (Rabs_pos_eq (/ 2)) in A by lra.
  pose proof (Rabs_pos (sin ((x + y) / 2))). pose proof (Rabs_pos (sin ((x - y) / 2))). nra.
Qed.

Definition qx (c s : R) (k : nat) : R := match k with 0%nat => c | 1%nat => s | _ => 0 end.
Definition qy (c s : R) (k : nat) : R := match k with 0%nat => c | 2%nat => s | _ => 0 end.
Definition qz (c s : R) (k : nat) : R := match k with 0%nat => c | 3%nat => s | _ => 0 end.

Lemma hp_dst A A' B B' : nrm 4 A' = 1 -> nrm 4 B' = 1 ->
  nrm 4 (fun k => hp A B k - hp A' B' k) <= nrm 4 (fun k => A k - A' k) + nrm 4 (fun k => B k - B' k) + nrm 4 (fun k => A k - A' k) * nrm 4 (fun k => B k - B' k).
Proof.
  intros HA HB. set (D := fun k => A k - A' k). set (D' := fun k => B k - B' k).
  assert (E : nrm 4 (fun k => hp A B k - hp A' B' k) = nrm 4 (fun k => (hp D B' k + hp A' D' k) + hp D D' k)).
  { apply nrm_ext. intros k Hk. unfold D, D'. destruct k as [ |[ |[ |[ |k]]]]; [ | | | |lia]; lazy [hp comp4 hamilton h4 add sub mul R_Num]; ring. }
  rewrite E. eapply Rle_trans; [apply (nrm_plus 4 (fun k => hp D B' k + hp A' D' k) (hp D D'))| ].
  pose proof (nrm_plus 4 (hp D B') (hp A' D')) as T. rewrite !hp_norm in *. rewrite HA, HB in T. lra.
Qed.

Section F.
Context {prec emax : Z} {Hp : Prec_gt_0 prec} {He : Prec_lt_emax prec emax} {O : FOracle (binary_float prec emax)}.
Notation fl := (binary_float prec emax).
Notation uro := (uro (prec := prec)).
Notation eta := (eta (prec := prec) (emax := emax)).
Hypothesis Hp11 : (11 <= prec)%Z.
Hypothesis He4 : (4 * prec <= emax)%Z.

(** a finite float matrix whose distance to the real matrix [r] (root of the sum of the squared differences of the entries) is at most [E] *)
Definition close3 (E : R) (m : M33 fl) (r : M33 R) : Prop :=
  (forall i j, (i < 3)%nat -> (j < 3)%nat -> is_finite (mfun m i j) = true) /\
  sqrt (sumn 3 (fun i => sumn 3 (fun j => (B2R (mfun m i j) - mfun r i j) ^ 2))) <= E.

Lemma close_dst (m : M33 fl) (r : M33 R) : sqrt (sumn 3 (fun i => sumn 3 (fun j => (B2R (mfun m i j) - mfun r i j) ^ 2))) = dst (mR m) (mfun r).
Proof.
  unfold dst, fnorm, nrm, sq_sum, mR. f_equal. lazy [sumn add mul zero R_Num Nat.div Nat.modulo Nat.divmod fst snd Nat.sub]. ring.
Qed.
Lemma close_pos E m r : close3 E m r -> 0 <= E.
Proof. intros [_ H]. rewrite close_dst in H. pose proof (dst_pos (mR m) (mfun r)). lra. Qed.

Lemma mfun_mul (m m' : M33 fl) i j : (i < 3)%nat -> (j < 3)%nat -> mfun (m33_mul m m') i j = vfun (m33_mul_v m [| mfun m' 0 j; mfun m' 1 j; mfun m' 2 j |]) i.
Proof.
  intros Hi Hj. destruct m as ((r00&r01&r02&[])&(r10&r11&r12&[])&(r20&r21&r22&[])&[]), m' as ((s00&s01&s02&[])&(s10&s11&s12&[])&(s20&s21&s22&[])&[]).
  ij i j Hi Hj; reflexivity.
Qed.
Lemma mfun_mulR (m m' : M33 R) i j : (i < 3)%nat -> (j < 3)%nat -> mfun (m33_mul m m') i j = mm (mfun m) (mfun m') i j.
Proof.
  intros Hi Hj. destruct m as ((r00&r01&r02&[])&(r10&r11&r12&[])&(r20&r21&r22&[])&[]), m' as ((s00&s01&s02&[])&(s10&s11&s12&[])&(s20&s21&s22&[])&[]).
  ij i j Hi Hj; reflexivity.
Qed.

(** ** products of float matrices close to rotations *)
Lemma c96_compose : forall (m m' : M33 fl) (r r' : M33 R) E E', SO3 r -> SO3 r' -> close3 E m r -> close3 E' m' r' -> E <= / 100 -> E' <= / 100 ->
  close3 (E + E' + E * E' + 93 / 10 * uro) (m33_mul m m') (m33_mul r r').
Proof.
  intros m m' r r' E E' Hr Hr' [F C] [F' C'] LE LE'. rewrite close_dst in C, C'.
  apply SO3_orth in Hr, Hr'. pose proof (dst_pos (mR m) (mfun r)) as P0. pose proof (dst_pos (mR m') (mfun r')) as P0'.
  pose proof (uro_small Hp11) as U. pose proof (uro_pos (prec := prec)) as P. pose proof (eta_tiny Hp11 He4) as T. assert (T0 : 0 <= eta) by apply eta_pos.
  assert (B : forall X Y i j, orthR Y -> dst X Y <= / 100 -> (i < 3)%nat -> (j < 3)%nat -> Rabs (X i j) <= 101 / 100).
  { intros X Y i j HY D Hi Hj. pose proof (orth_entry Y i j HY Hi Hj) as A. pose proof (fnorm_entry (fun i j => X i j - Y i j) i j Hi Hj) as A2. cbv beta in A2. fold (dst X Y) in A2.
    replace (X i j) with ((X i j - Y i j) + Y i j) by ring. eapply Rle_trans; [apply Rabs_triang|lra]. }
  assert (DC : dst (mR m) (mfun r) <= / 100) by lra. assert (DC' : dst (mR m') (mfun r') <= / 100) by lra.
  assert (L : forall i j, (i < 3)%nat -> (j < 3)%nat -> is_finite (mfun (m33_mul m m') i j) = true /\
    Rabs (mR (m33_mul m m') i j - mm (mR m) (mR m') i j) <= 301 / 100 * uro * aap (mR m) (fun k => mR m' k j) i + 4 * eta).
  { intros i j Hi Hj. rewrite (mfun_mul m m' i j Hi Hj). unfold mR at 1. rewrite (mfun_mul m m' i j Hi Hj).
    destruct (big_b Hp11 He4) as (b & Eb & B1 & _).
    assert (V : forall k, (k < 3)%nat -> vfun ([| mfun m' 0 j; mfun m' 1 j; mfun m' 2 j |] : V3 fl) k = mfun m' k j) by (intros k Hk; destruct k as [ |[ |[ |k]]]; [reflexivity..|lia]).
    destruct (linear_err Hp11 He4 m [| mfun m' 0 j; mfun m' 1 j; mfun m' 2 j |] b Eb) with (i := i) as [G1 G2]; [ | |exact Hi|split; [exact G1| ]].
    - intros a c Ha Hc. split; [exact (F a c Ha Hc)| ]. pose proof (B (mR m) (mfun r) a c Hr DC Ha Hc). lra.
    - intros k Hk. unfold vR. rewrite (V k Hk). split; [exact (F' k j Hk Hj)| ]. pose proof (B (mR m') (mfun r') k j Hr' DC' Hk Hj) as A. unfold mR in A. lra.
    - exact G2. }
  split; [intros i j Hi Hj; apply (L i j Hi Hj)| ]. rewrite close_dst.
  eapply Rle_trans; [apply (dst_tri _ (mm (mR m) (mR m')))| ].
  assert (D2 : dst (mm (mR m) (mR m')) (mfun (m33_mul r r')) <= E + E' + E * E').
  { replace (dst (mm (mR m) (mR m')) (mfun (m33_mul r r'))) with (dst (mm (mR m) (mR m')) (mm (mfun r) (mfun r'))).
    - eapply Rle_trans; [apply mm_dst; assumption| ]. assert (dst (mR m) (mfun r) * dst (mR m') (mfun r') <= E * E') by (apply Rmult_le_compat; assumption). lra.
    - unfold dst. apply fnorm_ext. intros i j Hi Hj. rewrite (mfun_mulR r r' i j Hi Hj). reflexivity. }
  assert (D1 : dst (mR (m33_mul m m')) (mm (mR m) (mR m')) <= 93 / 10 * uro).
  { unfold dst. eapply Rle_trans; [apply (fnorm_mono _ (fun i j => 301 / 100 * uro * aap (mR m) (fun k => mR m' k j) i + 4 * eta)); intros i j Hi Hj; apply (L i j Hi Hj)| ].
    eapply Rle_trans; [apply (fnorm_plus (fun i j => 301 / 100 * uro * aap (mR m) (fun k => mR m' k j) i) (fun _ _ => 4 * eta))| ].
    rewrite (fnorm_scal (301 / 100 * uro) (fun i j => aap (mR m) (fun k => mR m' k j) i)), Rabs_pos_eq by lra.
    pose proof (fnorm_aap (mR m) (mR m')) as A. pose proof (fnorm_near (mR m) (mfun r) Hr) as N. pose proof (fnorm_near (mR m') (mfun r') Hr') as N'.
    pose proof (fnorm_pos (mR m)) as Q. pose proof (fnorm_pos (mR m')) as Q'.
    assert (A2 : fnorm (mR m) * fnorm (mR m') <= 17421 / 10000 * (17421 / 10000)) by (apply Rmult_le_compat; lra).
    assert (A3 : fnorm (fun _ _ => 4 * eta) <= 3 * (4 * eta)) by (apply fnorm_all; [lra|intros; rewrite Rabs_pos_eq by lra; lra]).
    set (z := fnorm (fun i j => aap (mR m) (fun k => mR m' k j) i)) in *. assert (z <= 3035 / 1000) by lra.
    assert (301 / 100 * uro * z <= 301 / 100 * uro * (3035 / 1000)) by (apply Rmult_le_compat_l; lra). lra. }
  lra.
Qed.

(** any number of products: the error grows linearly *)
Lemma c96_product : forall E (ms : list (M33 fl)) (rs : list (M33 R)) (m : M33 fl) (r : M33 R), SO3 r -> close3 E m r ->
  Forall2 (fun m r => SO3 r /\ close3 E m r) ms rs -> INR (S (length ms)) * (102 / 100 * E + 93 / 10 * uro) <= / 100 ->
  SO3 (fold_left m33_mul rs r) /\
  close3 (E + INR (length ms) * (101 / 100 * E + 93 / 10 * uro)) (fold_left m33_mul ms m) (fold_left m33_mul rs r).
Proof.
  intros E ms. pose proof (uro_pos (prec := prec)) as P.
  assert (G : forall ms rs (m : M33 fl) (r : M33 R) D, SO3 r -> 0 <= E -> close3 D m r ->
    Forall2 (fun m r => SO3 r /\ close3 E m r) ms rs -> E <= / 100 -> D + INR (length ms) * (101 / 100 * E + 93 / 10 * uro) <= / 100 ->
    SO3 (fold_left m33_mul rs r) /\ close3 (D + INR (length ms) * (101 / 100 * E + 93 / 10 * uro)) (fold_left m33_mul ms m) (fold_left m33_mul rs r)).
  { clear ms. induction ms as [ |m' ms IH]; intros rs m r D Hr E0 C H LE LD; inversion H as [ |m1 r1 ms1 rs1 [Hr' C'] H1]; subst; cbn [fold_left length].
    - split; [exact Hr| ]. cbn [length INR] in *. replace (D + 0 * (101 / 100 * E + 93 / 10 * uro)) with D by ring. exact C.
    - cbn [length] in LD. rewrite S_INR in LD |- *. pose proof (pos_INR (length ms)) as NP. pose proof (close_pos _ _ _ C) as D0.
      assert (Z : 0 <= INR (length ms) * (101 / 100 * E + 93 / 10 * uro)) by (apply Rmult_le_pos; lra).
      pose proof (c96_compose m m' r r1 D E Hr Hr' C C' ltac:(lra) LE) as C2.
      assert (C3 : close3 (D + (101 / 100 * E + 93 / 10 * uro)) (m33_mul m m') (m33_mul r r1)).
      { destruct C2 as [F2 C2]. split; [exact F2|eapply Rle_trans; [exact C2| ]]. assert (D * E <= / 100 * E) by (apply Rmult_le_compat_r; lra). lra. }
      destruct (IH rs1 (m33_mul m m') (m33_mul r r1) _ (SO3_mul R_ring r r1 Hr Hr') E0 C3 H1 LE ltac:(lra)) as [S1 S2]. split; [exact S1| ].
      replace (D + (INR (length ms) + 1) * (101 / 100 * E + 93 / 10 * uro)) with (D + (101 / 100 * E + 93 / 10 * uro) + INR (length ms) * (101 / 100 * E + 93 / 10 * uro)) by ring. exact S2. }
  intros rs m r Hr C H L. pose proof (close_pos _ _ _ C) as E0. rewrite S_INR in L. pose proof (pos_INR (length ms)) as NP.
  assert (Z : 0 <= INR (length ms) * (2 / 100 * E)) by (apply Rmult_le_pos; lra).
  assert (Z2 : 0 <= INR (length ms) * (102 / 100 * E + 93 / 10 * uro)) by (apply Rmult_le_pos; lra).
  apply G; try assumption; lra.
Qed.

(** such a matrix is accepted by the theorems about nearly orthogonal matrices *)
Lemma c96_near_rot : forall E m r, SO3 r -> close3 E m r -> near_rot (2 * E + E * E) m.
Proof.
  intros E m r Hr [F C]. split; [exact F| ]. rewrite close_dst in C. pose proof (dst_pos (mR m) (mfun r)) as P0.
  intros i j Hi Hj. eapply Rle_trans; [apply (orth_near (mR m) (mfun r) (SO3_orth r Hr) i j Hi Hj)| ].
  assert (dst (mR m) (mfun r) * dst (mR m) (mfun r) <= E * E) by (apply Rmult_le_compat; assumption). lra.
Qed.

(** ** the elementary rotations *)
(** the computed sine and cosine of the float [x] are finite and within [e] of the exact ones *)
Definition trig_ok (e : R) (x : fl) : Prop :=
  (is_finite (fsin x) = true /\ Rabs (B2R (fsin x) - sin (B2R x)) <= e) /\ (is_finite (fcos x) = true /\ Rabs (B2R (fcos x) - cos (B2R x)) <= e).
Lemma trig_pos e x : trig_ok e x -> 0 <= e.
Proof. intros [[_ H] _]. pose proof (Rabs_pos (B2R (fsin x) - sin (B2R x))). lra. Qed.

Lemma one_val : is_finite (one : fl) = true /\ B2R (one : fl) = 1.
Proof. split; [apply is_finite_Bone|apply Bone_correct]. Qed.

Ltac fro_unfold := unfold fro2, sq_sum, mR; lazy [sumn add mul zero R_Num].
Lemma c96_elementary : forall e (x : fl), trig_ok e x ->
  close3 (2 * e) (rotx x) (rodrigues ex (B2R x)) /\ close3 (2 * e) (roty x) (rodrigues ey (B2R x)) /\ close3 (2 * e) (rotz x) (rodrigues ez (B2R x)).
Proof.
  intros e x T. pose proof (trig_pos e x T) as E0. destruct T as [[Fs Es] [Fc Ec]]. destruct one_val as [F1 V1]. change (B2R (Bone : fl) = 1) in V1.
  assert (Fn : is_finite (Bopp (fsin x)) = true) by (rewrite is_finite_Bopp; exact Fs).
  assert (Q : forall z, Rabs z <= e -> z ^ 2 <= e * e) by (intros z Hz; apply Rabs_le_inv in Hz; nra).
  pose proof (Q _ Es) as Qs. pose proof (Q _ Ec) as Qc. clear Q Es Ec.
  assert (G : forall z, z <= 2 * e * (2 * e) -> sqrt z <= 2 * e).
  { intros z Hz. rewrite <- (sqrt_square (2 * e)) by lra. apply sqrt_le_1_alt, Hz. }
  assert (M : forall (m : M33 fl) (r : M33 R), (forall i j, (i < 3)%nat -> (j < 3)%nat -> is_finite (mfun m i j) = true) ->
    sumn 3 (fun i => sumn 3 (fun j => (B2R (mfun m i j) - mfun r i j) ^ 2)) <= 2 * e * (2 * e) -> close3 (2 * e) m r) by (intros m r F S; split; [exact F|apply G, S]).
  split; [ |split]; (apply M; [intros i j Hi Hj; ij i j Hi Hj; first [exact F1|exact Fs|exact Fc|exact Fn|reflexivity]| ]).
  all: lazy [rotx roty rotz sin_cos rodrigues ex ey ez sumn add mul sub zero R_Num mfun vfun List.nth List.map alist ahd atl acons anil fst snd neg F_Signed F_Num one].
  all: rewrite ?B2R_Bopp, ?V1; cbn [B2R].
  all: match goal with |- ?l <= _ => replace l with (2 * (B2R (fsin x) - sin (B2R x)) ^ 2 + 2 * (B2R (fcos x) - cos (B2R x)) ^ 2) by ring end; lra.
Qed.

Lemma axis_SO3 a : SO3 (rodrigues ex a) /\ SO3 (rodrigues ey a) /\ SO3 (rodrigues ez a).
Proof. split; [ |split]; apply rodrigues_SO3; lazy -[Rplus Rmult]; ring. Qed.

Lemma close_weaken E E' m r : close3 E m r -> E <= E' -> close3 E' m r.
Proof. intros [F C] L. split; [exact F|lra]. Qed.

Lemma three_rot e (m1 m2 m3 : M33 fl) (r1 r2 r3 : M33 R) : 0 <= e <= / 800 -> SO3 r1 -> SO3 r2 -> SO3 r3 -> close3 (2 * e) m1 r1 -> close3 (2 * e) m2 r2 -> close3 (2 * e) m3 r3 ->
  close3 (61 / 10 * e + 187 / 10 * uro) (m33_mul (m33_mul m1 m2) m3) (m33_mul (m33_mul r1 r2) r3).
Proof.
  intros E0 H1 H2 H3 C1 C2 C3. pose proof (uro_pos (prec := prec)) as P. pose proof (uro_small Hp11) as U.
  pose proof (c96_compose m1 m2 r1 r2 (2 * e) (2 * e) H1 H2 C1 C2 ltac:(lra) ltac:(lra)) as C.
  assert (C' : close3 (403 / 100 * e + 93 / 10 * uro) (m33_mul m1 m2) (m33_mul r1 r2)) by (apply (close_weaken _ _ _ _ C); nra).
  assert (L : 403 / 100 * e + 93 / 10 * uro <= / 100) by lra.
  pose proof (c96_compose _ m3 _ r3 _ (2 * e) (SO3_mul R_ring r1 r2 H1 H2) H3 C' C3 L ltac:(lra)) as C2'.
  apply (close_weaken _ _ _ _ C2'). assert ((403 / 100 * e + 93 / 10 * uro) * (2 * e) <= / 100 * (2 * e)) by (apply Rmult_le_compat_r; lra). lra.
Qed.

(** rotations from Euler angles, all sequences but the one the code gets wrong (C30) *)
Lemma c96_euler_to_rotation : forall e (y p r : fl) s, trig_ok e y -> trig_ok e p -> trig_ok e r -> e <= / 800 -> s <> Some YZX ->
  close3 (61 / 10 * e + 187 / 10 * uro) (euler_to_rotation y p r s) (euler_product s (B2R y) (B2R p) (B2R r)).
Proof.
  intros e y p r s Ty Tp Tr L N. pose proof (trig_pos _ _ Ty) as E0.
  destruct (c96_elementary e y Ty) as (Xy & Yy & Zy), (c96_elementary e p Tp) as (Xp & Yp & Zp), (c96_elementary e r Tr) as (Xr & Yr & Zr).
  destruct (axis_SO3 (B2R y)) as (A1 & A2 & A3), (axis_SO3 (B2R p)) as (B1 & B2 & B3), (axis_SO3 (B2R r)) as (C1 & C2 & C3).
  destruct s as [[]| ]; unfold euler_to_rotation, euler_product; cbn [seq_axes]; try (exfalso; apply N; reflexivity); apply three_rot; try assumption; lra.
Qed.

(** ** quaternions from angles *)
Lemma half_div (x t : fl) : is_finite x = true -> is_finite t = true -> B2R t = 2 -> is_finite (div x t) = true /\ Rabs (B2R (div x t) - B2R x / 2) <= eta.
Proof.
  intros F Ft V. destruct (half_val Hp11 He4) as [Fh Vh]. destruct (hlf_val Hp11 He4 x F) as (_ & E & _).
  assert (B : Rabs (round radix2 (FLT_exp (3 - emax - prec) prec) ZnearestE (B2R x / 2)) < bpow radix2 emax).
  { apply Rle_lt_trans with (Rabs (B2R x)); [ |apply abs_B2R_lt_emax]. apply abs_round_le_generic; [apply FLT_exp_valid, Hp|apply valid_rnd_N| | ].
    - apply generic_format_abs. rewrite <- fe_eq. apply generic_format_B2R.
    - unfold Rdiv. rewrite Rabs_mult, (Rabs_pos_eq (/ 2)) by lra. pose proof (Rabs_pos (B2R x)). lra. }
  assert (N : B2R t <> 0) by (rewrite V; lra).
  pose proof (Bdiv_correct prec emax Hp He mode_NE x t N) as C. cbn [round_mode] in C. rewrite fe_eq, V in C.
  rewrite Rlt_bool_true in C by exact B. destruct C as (C1 & C2 & _). rewrite F in C2. split; [exact C2| ].
  pose proof (Bmult_correct prec emax Hp He mode_NE x (div one (add one one))) as D. cbn [round_mode] in D. rewrite fe_eq, Vh in D.
  rewrite Rlt_bool_true in D by exact B. destruct D as (D1 & _).
  change (B2R (div x t) = round radix2 (FLT_exp (3 - emax - prec) prec) ZnearestE (B2R x / 2)) in C1.
  change (B2R (mul x (div one (add one one))) = round radix2 (FLT_exp (3 - emax - prec) prec) ZnearestE (B2R x / 2)) in D1.
  rewrite C1, <- D1. unfold Rdiv. rewrite (Rmult_comm (B2R x)). exact E.
Qed.

Lemma trig_half e (x t : fl) : is_finite x = true -> is_finite t = true -> B2R t = 2 -> trig_ok e (div x t) ->
  (is_finite (fsin (div x t)) = true /\ Rabs (B2R (fsin (div x t)) - sin (B2R x / 2)) <= e + eta) /\
  (is_finite (fcos (div x t)) = true /\ Rabs (B2R (fcos (div x t)) - cos (B2R x / 2)) <= e + eta).
Proof.
  intros F Ft V [[Fs Es] [Fc Ec]]. destruct (half_div x t F Ft V) as [Fh Eh].
  pose proof (sin_lip (B2R (div x t)) (B2R x / 2)) as L1. pose proof (cos_lip (B2R (div x t)) (B2R x / 2)) as L2.
  split; (split; [assumption| ]).
  - replace (B2R (fsin (div x t)) - sin (B2R x / 2)) with ((B2R (fsin (div x t)) - sin (B2R (div x t))) + (sin (B2R (div x t)) - sin (B2R x / 2))) by ring.
    eapply Rle_trans; [apply Rabs_triang|lra].
  - replace (B2R (fcos (div x t)) - cos (B2R x / 2)) with ((B2R (fcos (div x t)) - cos (B2R (div x t))) + (cos (B2R (div x t)) - cos (B2R x / 2))) by ring.
    eapply Rle_trans; [apply Rabs_triang|lra].
Qed.

Ltac uerr_go := lazymatch goal with
  | |- uerr (add _ _) _ _ => eapply uerr_add; uerr_go
  | |- uerr (sub _ _) _ _ => eapply uerr_sub; uerr_go
  | |- uerr (mul _ _) _ _ => eapply uerr_mul; uerr_go
  | |- _ => eapply uerr_leaf
  end.
Ltac ufin_go := lazymatch goal with
  | |- ufin (add _ _) _ => eapply ufin_add; [exact Hp11|exact He4|ufin_go..]
  | |- ufin (sub _ _) _ => eapply ufin_sub; [exact Hp11|exact He4|ufin_go..]
  | |- ufin (mul _ _) _ => eapply ufin_mul; [exact Hp11|exact He4|ufin_go..]
  | |- _ => eassumption
  end.

Definition small (x : fl) : Prop := is_finite x = true /\ Rabs (B2R x) <= 11 / 10.
Lemma small_ufin x : small x -> ufin x (11 / 10, 0%nat).
Proof. intros [F B]. apply ufin_leaf; [exact F|exact B|lra]. Qed.

Lemma trip_ok (x1 x2 x3 y1 y2 y3 t : fl) (r : R) : small x1 -> small x2 -> small x3 -> small y1 -> small y2 -> small y3 ->
  (t = add (mul (mul x1 x2) x3) (mul (mul y1 y2) y3) /\ r = B2R x1 * B2R x2 * B2R x3 + B2R y1 * B2R y2 * B2R y3 \/
   t = sub (mul (mul x1 x2) x3) (mul (mul y1 y2) y3) /\ r = B2R x1 * B2R x2 * B2R x3 - B2R y1 * B2R y2 * B2R y3) ->
  is_finite t = true /\ Rabs (B2R t - r) <= 301 / 100 * uro * (Rabs (B2R x1 * B2R x2 * B2R x3) + Rabs (B2R y1 * B2R y2 * B2R y3)) + 5 * eta.
Proof.
  intros X1 X2 X3 Y1 Y2 Y3 C. pose proof (emax_big Hp11 He4) as EB.
  pose proof (uro_small Hp11) as U. pose proof (uro_pos (prec := prec)) as P. assert (T0 : 0 <= eta) by apply eta_pos.
  assert (F : is_finite t = true).
  { apply small_ufin in X1, X2, X3, Y1, Y2, Y3.
    destruct C as [[-> _]|[-> _]]; (eapply (ufin_done Hp11 _ _ _ _ 100 100); [ufin_go|reflexivity|cbn; lra|cbn; lra|lra|lra]). }
  split; [exact F| ].
  pose proof (pow_lin Hp11 3 (301 / 100) ltac:(cbn; lra) ltac:(lra)) as P4. pose proof (pow_mono 0 3 ltac:(lia) : _ <= _ <= (1 + uro) ^ 3) as [_ P4']. rewrite pow_O in P4'.
  assert (G : Rabs (B2R t - r) <= ((1 + uro) ^ 3 - 1) * (Rabs (B2R x1 * B2R x2 * B2R x3) + Rabs (B2R y1 * B2R y2 * B2R y3)) + (1 + uro) ^ 3 * (42 / 10 * eta)).
  { destruct X1 as [_ X1], X2 as [_ X2], X3 as [_ X3], Y1 as [_ Y1], Y2 as [_ Y2], Y3 as [_ Y3].
    rewrite !Rabs_mult. destruct C as [[-> ->]|[-> ->]]; (eapply uerr_done; [uerr_go|reflexivity|..]).
    - lazy; lia.
    - reflexivity.
    - apply Req_le. reflexivity.
    - pose proof (Rabs_pos (B2R x3)). pose proof (Rabs_pos (B2R y3)). nra.
    - exact F.
    - lazy; lia.
    - reflexivity.
    - apply Req_le. reflexivity.
    - pose proof (Rabs_pos (B2R x3)). pose proof (Rabs_pos (B2R y3)). nra.
    - exact F. }
  eapply Rle_trans; [exact G| ]. set (q := (1 + uro) ^ 3) in *. clearbody q.
  set (z := Rabs (B2R x1 * B2R x2 * B2R x3) + Rabs (B2R y1 * B2R y2 * B2R y3)). assert (0 <= z) by (apply Rplus_le_le_0_compat; apply Rabs_pos).
  assert ((q - 1) * z <= 301 / 100 * uro * z) by (apply Rmult_le_compat_r; lra). assert (q * (42 / 10 * eta) <= 11 / 10 * (42 / 10 * eta)) by (apply Rmult_le_compat_r; lra). lra.
Qed.

(** a float quaternion within [E] of the real quaternion [A] *)
Definition close4 (E : R) (a : Quaternion fl) (A : Quaternion R) : Prop :=
  (forall k, (k < 4)%nat -> is_finite (qcomp k a) = true) /\ sqrt (sumn 4 (fun k => (B2R (qcomp k a) - qcomp k A) ^ 2)) <= E.
Lemma close4_nrm (a : Quaternion fl) (A : Quaternion R) : sqrt (sumn 4 (fun k => (B2R (qcomp k a) - qcomp k A) ^ 2)) = nrm 4 (fun k => qR a k - rq A k).
Proof. unfold nrm, sq_sum, qR, rq. f_equal. apply sumn_ext. intros k Hk. ring. Qed.

(** the quaternion of three angles *)
Lemma euler_real y p r : exists A : Quaternion R, unit_quat A /\ q_to_rotation A = euler_product None y p r /\
  forall k, (k < 4)%nat -> rq A k = hp (hp (qz (cos (y / 2)) (sin (y / 2))) (qy (cos (p / 2)) (sin (p / 2)))) (qx (cos (r / 2)) (sin (r / 2))) k.
Proof.
  destruct (c30_from_euler_angles (K := f64_consts) y p r) as (U & _ & _ & E). exists (q_from_euler_angles (fT := @R_Float f64_consts) y p r).
  split; [exact U|split; [exact E| ]]. intros k Hk. unfold rq.
  assert (H : forall x, x / 2 = div x (add one one)) by (intros x; lazy [div add one R_Num]; f_equal; ring).
  destruct k as [ |[ |[ |[ |k]]]]; [ | | | |lia];
  lazy [q_from_euler_angles sin_cos qcomp vfun List.nth List.map alist ahd atl acons anil fst snd q0 Quat.q hp comp4 hamilton h4 qx qy qz add sub mul one div R_Num R_Float fsin fcos];
  change 2 with (1 + 1); ring.
Qed.

Lemma unit_cs f x : (f = qx \/ f = qy \/ f = qz) -> nrm 4 (f (cos x) (sin x)) = 1.
Proof.
  intros H. assert (S : sq_sum 4 (f (cos x) (sin x)) = 1).
  { pose proof (sin2_cos2 x) as Q. unfold Rsqr in Q. destruct H as [->|[->| ->]]; unfold sq_sum; lazy [sumn add mul zero R_Num qx qy qz]; lra. }
  unfold nrm. rewrite S. apply sqrt_1.
Qed.
Lemma cs_dst f c s c' s' e : (f = qx \/ f = qy \/ f = qz) -> Rabs (c - c') <= e -> Rabs (s - s') <= e -> nrm 4 (fun k => f c s k - f c' s' k) <= 14143 / 10000 * e.
Proof.
  intros H C S. pose proof (Rabs_pos (c - c')) as Z. apply nrm_le; [lra| ]. apply Rabs_le_inv in C, S.
  assert ((c - c') * (c - c') <= e * e) by nra. assert ((s - s') * (s - s') <= e * e) by nra.
  destruct H as [->|[->| ->]]; unfold sq_sum; lazy [sumn add mul zero R_Num qx qy qz]; nra.
Qed.
Lemma cs_nrm f c s c' s' x e : (f = qx \/ f = qy \/ f = qz) -> c' = cos x -> s' = sin x -> Rabs (c - c') <= e -> Rabs (s - s') <= e -> e <= / 200 -> c * c + s * s <= 10143 / 10000.
Proof.
  intros H -> -> C S L. pose proof (cs_dst f c s _ _ e H C S) as D. pose proof (unit_cs f x H) as N.
  pose proof (nrm_diff 4 (f c s) (f (cos x) (sin x))) as T. rewrite N in T. apply Rabs_le_inv in T.
  pose proof (nrm_sq 4 (f c s)) as Q. pose proof (nrm_pos 4 (f c s)) as Z.
  assert (E : sq_sum 4 (f c s) = c * c + s * s) by (destruct H as [->|[->| ->]]; unfold sq_sum; lazy [sumn add mul zero R_Num qx qy qz]; ring).
  rewrite E in Q. nra.
Qed.

Lemma c96_from_euler_angles : forall e (y p r : fl), is_finite y = true -> is_finite p = true -> is_finite r = true ->
  trig_ok e (div y (add one one)) -> trig_ok e (div p (add one one)) -> trig_ok e (div r (add one one)) -> e <= / 250 ->
  exists A : Quaternion R, unit_quat A /\ q_to_rotation A = euler_product None (B2R y) (B2R p) (B2R r) /\
  close4 (43 / 10 * e + 45 / 10 * uro) (q_from_euler_angles y p r) A.
Proof.
  intros e y p r Fy Fp Fr Ty Tp Tr Le. pose proof (trig_pos _ _ Ty) as E0. destruct (two_val (emax := emax) Hp11) as [F2 V2].
  destruct (trig_half e y _ Fy F2 V2 Ty) as [[Fsy Sy] [Fcy Cy]], (trig_half e p _ Fp F2 V2 Tp) as [[Fsp Sp] [Fcp Cp]], (trig_half e r _ Fr F2 V2 Tr) as [[Fsr Sr] [Fcr Cr]].
  destruct (euler_real (B2R y) (B2R p) (B2R r)) as (A & UA & EA & VA). exists A. split; [exact UA|split; [exact EA| ]].
  pose proof (uro_small Hp11) as U. pose proof (uro_pos (prec := prec)) as P. pose proof (eta_tiny Hp11 He4) as T. assert (T0 : 0 <= eta) by apply eta_pos.
  set (e1 := e + eta) in *. assert (L1 : e1 <= / 200) by (unfold e1; lra). assert (Z1 : 0 <= e1) by (unfold e1; lra).
  unfold q_from_euler_angles. cbv zeta. unfold sin_cos.
  set (sy := fsin (div y (add one one))) in *. set (cy := fcos (div y (add one one))) in *.
  set (sp := fsin (div p (add one one))) in *. set (cp := fcos (div p (add one one))) in *.
  set (sr := fsin (div r (add one one))) in *. set (cr := fcos (div r (add one one))) in *.
  pose proof (cs_nrm qz _ _ _ _ _ e1 ltac:(auto) eq_refl eq_refl Cy Sy L1) as Ny.
  pose proof (cs_nrm qy _ _ _ _ _ e1 ltac:(auto) eq_refl eq_refl Cp Sp L1) as Np.
  pose proof (cs_nrm qx _ _ _ _ _ e1 ltac:(auto) eq_refl eq_refl Cr Sr L1) as Nr.
  assert (SM : forall z : fl, is_finite z = true -> B2R z * B2R z <= 10143 / 10000 -> small z) by (intros z F B; split; [exact F|apply Rabs_le; nra]).
  assert (M1 : small sy) by (apply SM; [exact Fsy|nra]). assert (M2 : small cy) by (apply SM; [exact Fcy|nra]).
  assert (M3 : small sp) by (apply SM; [exact Fsp|nra]). assert (M4 : small cp) by (apply SM; [exact Fcp|nra]).
  assert (M5 : small sr) by (apply SM; [exact Fsr|nra]). assert (M6 : small cr) by (apply SM; [exact Fcr|nra]).
  pose proof (trip_ok cr cp cy sr sp sy _ _ M6 M4 M2 M5 M3 M1 (or_introl (conj eq_refl eq_refl))) as [G0 H0].
  pose proof (trip_ok sr cp cy cr sp sy _ _ M5 M4 M2 M6 M3 M1 (or_intror (conj eq_refl eq_refl))) as [G1 H1].
  pose proof (trip_ok cr sp cy sr cp sy _ _ M6 M3 M2 M5 M4 M1 (or_introl (conj eq_refl eq_refl))) as [G2 H2].
  pose proof (trip_ok cr cp sy sr sp cy _ _ M6 M4 M1 M5 M3 M2 (or_intror (conj eq_refl eq_refl))) as [G3 H3].
  split; [intros k Hk; destruct k as [ |[ |[ |[ |k]]]]; [exact G0|exact G1|exact G2|exact G3|lia]| ]. rewrite close4_nrm.
  match goal with |- nrm 4 (fun k => qR ?q k - _) <= _ => set (qq := q) end.
  set (X := hp (hp (qz (B2R cy) (B2R sy)) (qy (B2R cp) (B2R sp))) (qx (B2R cr) (B2R sr))).
  set (b := fun k => match k with
    | 0%nat => Rabs (B2R cr * B2R cp * B2R cy) + Rabs (B2R sr * B2R sp * B2R sy)
    | 1%nat => Rabs (B2R sr * B2R cp * B2R cy) + Rabs (B2R cr * B2R sp * B2R sy)
    | 2%nat => Rabs (B2R cr * B2R sp * B2R cy) + Rabs (B2R sr * B2R cp * B2R sy)
    | _ => Rabs (B2R cr * B2R cp * B2R sy) + Rabs (B2R sr * B2R sp * B2R cy) end).
  assert (R1 : forall k, (k < 4)%nat -> Rabs (qR qq k - X k) <= 301 / 100 * uro * b k + 5 * eta).
  { assert (X0 : X 0%nat = B2R cr * B2R cp * B2R cy + B2R sr * B2R sp * B2R sy) by (unfold X; lazy [hp comp4 hamilton h4 qx qy qz add sub mul R_Num]; ring).
    assert (X1 : X 1%nat = B2R sr * B2R cp * B2R cy - B2R cr * B2R sp * B2R sy) by (unfold X; lazy [hp comp4 hamilton h4 qx qy qz add sub mul R_Num]; ring).
    assert (X2 : X 2%nat = B2R cr * B2R sp * B2R cy + B2R sr * B2R cp * B2R sy) by (unfold X; lazy [hp comp4 hamilton h4 qx qy qz add sub mul R_Num]; ring).
    assert (X3 : X 3%nat = B2R cr * B2R cp * B2R sy - B2R sr * B2R sp * B2R cy) by (unfold X; lazy [hp comp4 hamilton h4 qx qy qz add sub mul R_Num]; ring).
    intros k Hk. destruct k as [ |[ |[ |[ |k]]]]; [rewrite X0; exact H0|rewrite X1; exact H1|rewrite X2; exact H2|rewrite X3; exact H3|lia]. }
  assert (R2 : nrm 4 (fun k => qR qq k - X k) <= 440 / 100 * uro).
  { eapply Rle_trans; [apply (nrm_mono 4 _ (fun k => 301 / 100 * uro * b k + 5 * eta)); exact R1| ].
    eapply Rle_trans; [apply (nrm_plus 4 (fun k => 301 / 100 * uro * b k) (fun _ => 5 * eta))| ].
    rewrite (nrm_scal 4 (301 / 100 * uro) b), Rabs_pos_eq by lra.
    assert (B1 : nrm 4 (fun _ => 5 * eta) <= 2 * (5 * eta)).
    { apply nrm_le; [lra| ]. unfold sq_sum. lazy [sumn add mul zero R_Num]. lra. }
    assert (B2 : nrm 4 b <= 1446 / 1000).
    { apply nrm_le; [lra| ].
      assert (Q : forall u v, (Rabs u + Rabs v) * (Rabs u + Rabs v) <= 2 * (u * u) + 2 * (v * v)).
      { intros u v. pose proof (pow2_ge_0 (Rabs u - Rabs v)). assert (Rabs u * Rabs u = u * u) by (rewrite <- Rabs_mult; apply Rabs_pos_eq; nra).
        assert (Rabs v * Rabs v = v * v) by (rewrite <- Rabs_mult; apply Rabs_pos_eq; nra). nra. }
      unfold sq_sum, b. lazy [sumn add mul zero R_Num].
      pose proof (Q (B2R cr * B2R cp * B2R cy) (B2R sr * B2R sp * B2R sy)) as Q0. pose proof (Q (B2R sr * B2R cp * B2R cy) (B2R cr * B2R sp * B2R sy)) as Q1.
      pose proof (Q (B2R cr * B2R sp * B2R cy) (B2R sr * B2R cp * B2R sy)) as Q2. pose proof (Q (B2R cr * B2R cp * B2R sy) (B2R sr * B2R sp * B2R cy)) as Q3.
      assert (Q4 : (B2R cr * B2R cr + B2R sr * B2R sr) * ((B2R cp * B2R cp + B2R sp * B2R sp) * (B2R cy * B2R cy + B2R sy * B2R sy)) <= 10143 / 10000 * (10143 / 10000 * (10143 / 10000))).
      { clear - Ny Np Nr. apply Rmult_le_compat; [nra| |exact Nr| ]; [apply Rmult_le_pos; nra| ]. apply Rmult_le_compat; [nra|nra|exact Np|exact Ny]. }
      clear - Q0 Q1 Q2 Q3 Q4. lra. }
    assert (301 / 100 * uro * nrm 4 b <= 301 / 100 * uro * (1446 / 1000)) by (apply Rmult_le_compat_l; lra). lra. }
  assert (R3 : nrm 4 (fun k => X k - rq A k) <= 428 / 100 * e1).
  { rewrite (nrm_ext 4 _ (fun k => X k - hp (hp (qz (cos (B2R y / 2)) (sin (B2R y / 2))) (qy (cos (B2R p / 2)) (sin (B2R p / 2)))) (qx (cos (B2R r / 2)) (sin (B2R r / 2))) k)) by (intros k Hk; rewrite (VA k Hk); reflexivity).
    pose proof (unit_cs qz (B2R y / 2) ltac:(auto)) as N1. pose proof (unit_cs qy (B2R p / 2) ltac:(auto)) as N2. pose proof (unit_cs qx (B2R r / 2) ltac:(auto)) as N3.
    pose proof (hp_dst (qz (B2R cy) (B2R sy)) _ (qy (B2R cp) (B2R sp)) _ N1 N2) as D1.
    assert (N12 : nrm 4 (hp (qz (cos (B2R y / 2)) (sin (B2R y / 2))) (qy (cos (B2R p / 2)) (sin (B2R p / 2)))) = 1) by (rewrite hp_norm, N1, N2; ring).
    pose proof (hp_dst (hp (qz (B2R cy) (B2R sy)) (qy (B2R cp) (B2R sp))) _ (qx (B2R cr) (B2R sr)) _ N12 N3) as D2. fold X in D2.
    pose proof (cs_dst qz _ _ _ _ e1 ltac:(auto) Cy Sy) as K1. pose proof (cs_dst qy _ _ _ _ e1 ltac:(auto) Cp Sp) as K2. pose proof (cs_dst qx _ _ _ _ e1 ltac:(auto) Cr Sr) as K3.
    eapply Rle_trans; [exact D2| ].
    match type of D1 with ?l <= ?a + ?b + ?a * ?b => set (z := l) in *; set (d1 := a) in *; set (d2 := b) in * end.
    match goal with |- _ + ?c + _ <= _ => set (d3 := c) in * end.
    assert (P1 : 0 <= d1) by apply nrm_pos. assert (P2 : 0 <= d2) by apply nrm_pos. assert (P3 : 0 <= d3) by apply nrm_pos. assert (P4 : 0 <= z) by apply nrm_pos. clearbody z d1 d2 d3.
    assert (d1 * d2 <= 14143 / 10000 * e1 * (14143 / 10000 * / 200)) by (apply Rmult_le_compat; lra).
    assert (Bz : z <= 2840 / 1000 * e1) by lra. assert (z * d3 <= 2840 / 1000 * / 200 * (14143 / 10000 * e1)) by (apply Rmult_le_compat; lra). lra. }
  assert (TR : nrm 4 (fun k => qR qq k - rq A k) <= nrm 4 (fun k => qR qq k - X k) + nrm 4 (fun k => X k - rq A k)).
  { eapply Rle_trans; [ |apply nrm_plus]. right. apply nrm_ext. intros k Hk. ring. }
  unfold e1 in R3. lra.
Qed.

(** what the distance says about unit length and about the matrix *)
Lemma c96_quaternion_matrix : forall E (a : Quaternion fl) (A : Quaternion R), unit_quat A -> close4 E a A -> E <= / 220 ->
  near_unit E a /\ forall i j, (i < 3)%nat -> (j < 3)%nat -> is_finite (mfun (q_to_rotation a) i j) = true /\
  Rabs (B2R (mfun (q_to_rotation a) i j) - mfun (q_to_rotation A) i j) <= 201 / 100 * E + 41 / 10 * uro.
Proof.
  intros E a A UA [F C] L. rewrite close4_nrm in C. pose proof (unit_sq A UA) as S. assert (NA : nrm 4 (rq A) = 1) by (unfold nrm; rewrite S; apply sqrt_1).
  assert (NU : near_unit E a).
  { split; [exact F| ]. pose proof (nrm_diff 4 (qR a) (rq A)) as D. rewrite NA in D. lra. }
  split; [exact NU| ]. intros i j Hi Hj. destruct (rot_entry_err Hp11 He4 E a i j NU L Hi Hj) as [G1 G2]. split; [exact G1| ].
  rewrite rot_exact_R by assumption. pose proof (rot_exact_diff (qR a) (rq A) i j Hi Hj) as D. rewrite NA in D. destruct NU as [_ NU]. apply Rabs_le_inv in NU.
  replace (B2R (mfun (q_to_rotation a) i j) - rot_exact (rq A) i j) with ((B2R (mfun (q_to_rotation a) i j) - rot_exact (qR a) i j) + (rot_exact (qR a) i j - rot_exact (rq A) i j)) by ring.
  eapply Rle_trans; [apply Rabs_triang| ].
  assert (nrm 4 (fun k => qR a k - rq A k) * (nrm 4 (qR a) + 1) <= E * (201 / 100)) by (apply Rmult_le_compat; [apply nrm_pos|lra|exact C|lra]). lra.
Qed.

(** the two ways from angles to a rotation agree *)
Lemma c96_euler_agree : forall e (y p r : fl), is_finite y = true -> is_finite p = true -> is_finite r = true ->
  trig_ok e y -> trig_ok e p -> trig_ok e r ->
  trig_ok e (div y (add one one)) -> trig_ok e (div p (add one one)) -> trig_ok e (div r (add one one)) -> e <= / 2000 ->
  forall i j, (i < 3)%nat -> (j < 3)%nat ->
  Rabs (B2R (mfun (q_to_rotation (q_from_euler_angles y p r)) i j) - B2R (mfun (euler_to_rotation y p r None) i j)) <= 15 * e + 32 * uro.
Proof.
  intros e y p r Fy Fp Fr Ty Tp Tr Ty' Tp' Tr' Le i j Hi Hj.
  destruct (c96_from_euler_angles e y p r Fy Fp Fr Ty' Tp' Tr' ltac:(lra)) as (A & UA & EA & CA).
  destruct (c96_euler_to_rotation e y p r None Ty Tp Tr ltac:(lra) ltac:(discriminate)) as [_ C]. rewrite close_dst in C.
  pose proof (uro_small Hp11) as U. pose proof (uro_pos (prec := prec)) as P. pose proof (trig_pos _ _ Ty) as E0.
  destruct (c96_quaternion_matrix _ _ _ UA CA ltac:(lra)) as [_ M]. destruct (M i j Hi Hj) as [_ M1]. rewrite EA in M1.
  pose proof (fnorm_entry (fun i j => mR (euler_to_rotation y p r None) i j - mfun (euler_product None (B2R y) (B2R p) (B2R r)) i j) i j Hi Hj) as D. cbv beta in D.
  fold (dst (mR (euler_to_rotation y p r None)) (mfun (euler_product None (B2R y) (B2R p) (B2R r)))) in D. unfold mR at 1 in D.
  apply Rabs_le_inv in M1. apply Rabs_le. assert (D' := Rle_trans _ _ _ D C). apply Rabs_le_inv in D'. lra.
Qed.

(** ** rotations about the direction of a float vector *)
Lemma mul_ok (x y : fl) : is_finite x = true -> is_finite y = true -> Rabs (B2R x * B2R y) <= 100 ->
  is_finite (mul x y) = true /\ Rabs (B2R (mul x y) - B2R x * B2R y) <= uro * Rabs (B2R x * B2R y) + eta.
Proof.
  intros Fx Fy L. pose proof (Bmult_correct prec emax Hp He mode_NE x y) as C. cbn [round_mode] in C. rewrite fe_eq in C.
  rewrite Rlt_bool_true in C by (apply (rnd_small Hp11 He4), L). destruct C as (C1 & C2 & _). rewrite Fx, Fy in C2. split; [exact C2| ].
  assert (C3 : B2R (mul x y) = round radix2 (FLT_exp (3 - emax - prec) prec) ZnearestE (B2R x * B2R y)) by exact C1. rewrite C3.
  destruct (rnd_error (prec := prec) (emax := emax) (B2R x * B2R y)) as (e & h & Le & Lh & ->).
  replace (B2R x * B2R y * (1 + e) + h - B2R x * B2R y) with (e * (B2R x * B2R y) + h) by ring.
  eapply Rle_trans; [apply Rabs_triang| ]. rewrite Rabs_mult. apply Rplus_le_compat; [apply Rmult_le_compat_r; [apply Rabs_pos|exact Le]|exact Lh].
Qed.

(** the Euclidean length of a float vector, and its direction *)
Definition len3 (v : V3 fl) : R := sqrt (B2R (vfun v 0) ^ 2 + B2R (vfun v 1) ^ 2 + B2R (vfun v 2) ^ 2).
Definition dir3 (v : V3 fl) : V3 R := [| B2R (vfun v 0) / len3 v; B2R (vfun v 1) / len3 v; B2R (vfun v 2) / len3 v |].
(** its norm can be computed: no overflow, and the squares stay well above the subnormal numbers *)
Definition norm_ok (v : V3 fl) : Prop := is_finite (v3_norm2 v) = true /\ 1000000 * eta <= uro * (B2R (v3_norm2 v) * B2R (v3_norm2 v)).

Lemma len3_nrm v : len3 v = nrm 3 (vR v).
Proof. unfold len3, nrm, sq_sum, vR. f_equal. lazy [sumn add mul zero R_Num]. ring. Qed.

Lemma norm_val (v : V3 fl) : norm_ok v -> 0 < len3 v /\ Rabs (B2R (v3_norm2 v) - len3 v) <= 28 / 10 * uro * len3 v.
Proof.
  intros [F H]. assert (Ex : v3_norm2 v = Bsqrt mode_NE (dotl 3 (vfun v) (vfun v))).
  { change (v3_norm2 v) with (d_vnorm2 D3 v). rewrite d_vnorm2_root, d_vdot_dotl. reflexivity. }
  rewrite Ex in *. set (x := Bsqrt mode_NE (dotl 3 (vfun v) (vfun v))) in *.
  pose proof (uro_small Hp11) as U. pose proof (uro_pos (prec := prec)) as P. assert (P0 : 0 < eta) by apply FloatFacts.eta_pos.
  assert (H1 : 0 < B2R x) by (apply root_gt0; intros E; change (B2R x = 0) in E; rewrite E in H; lra).
  pose proof (finite_root (dotl 3 (vfun v) (vfun v)) F) as Fd. destruct (dotl_error 3 (vfun v) (vfun v) ltac:(lia) Fd) as [Fa D]. cbv zeta in D.
  destruct (sqrt_round (dotl 3 (vfun v) (vfun v))) as (e & Le & En). change (B2R x = sqrt (B2R (dotl 3 (vfun v) (vfun v))) * (1 + e)) in En.
  set (S := sq_sum 3 (vR v)).
  assert (D' : Rabs (B2R (dotl 3 (vfun v) (vfun v)) - S) <= ((1 + uro) ^ 3 - 1) * S + 3 * (1 + uro) ^ 3 * eta).
  { assert (ES : S = sum_f_R0 (fun k => B2R (vfun v k) * B2R (vfun v k)) (3 - 1)) by (unfold S, sq_sum, vR; rewrite sumn_sum_f by lia; reflexivity).
    assert (Y : sum_f_R0 (fun k => Rabs (B2R (vfun v k) * B2R (vfun v k))) (3 - 1) = S) by (rewrite ES; apply sum_eq; intros k _; apply Rabs_pos_eq; nra).
    rewrite Y in D. rewrite ES at 1. replace 3 with (INR 3) by (cbn; lra). exact D. }
  pose proof (pow_lin Hp11 3 (302 / 100) ltac:(cbn; lra) ltac:(lra)) as Pn. pose proof (pow_mono 0 3 ltac:(lia) : _ <= _ <= (1 + uro) ^ 3) as [_ Pn']. rewrite pow_O in Pn'.
  destruct (norm_core_n Hp11 (302 / 100) 3 ((1 + uro) ^ 3) S _ (B2R x) e ltac:(lra) ltac:(lra) (conj Pn' Pn) (sq_sum_pos _ _) Le En H1 H D') as (Sp & NN).
  rewrite len3_nrm. pose proof (nrm_sq 3 (vR v)) as NS. fold S in NS. pose proof (nrm_pos 3 (vR v)) as N0. set (N := nrm 3 (vR v)) in *.
  assert (Np : 0 < N) by (destruct N0 as [N0|N0]; [exact N0|rewrite <- N0 in NS; lra]). split; [exact Np| ].
  clear - NN NS Np H1 U P. set (y := B2R x) in *. set (u := uro) in *. clearbody y u. rewrite <- NS in NN. apply Rabs_le.
  split; [destruct (Rle_lt_dec (- (28 / 10 * u * N)) (y - N)) as [L|L]|destruct (Rle_lt_dec (y - N) (28 / 10 * u * N)) as [L|L]]; try exact L; exfalso.
  - assert (y < (1 - 28 / 10 * u) * N) by lra. assert (y * y < (1 - 28 / 10 * u) * N * ((1 - 28 / 10 * u) * N)) by (apply Rmult_le_0_lt_compat; lra). nra.
  - assert ((1 + 28 / 10 * u) * N < y) by lra. assert ((1 + 28 / 10 * u) * N * ((1 + 28 / 10 * u) * N) < y * y) by (apply Rmult_le_0_lt_compat; nra). nra.
Qed.

Lemma dir_unit v : 0 < len3 v -> v3_dot (dir3 v) (dir3 v) = 1 /\ sq_sum 3 (vfun (dir3 v)) = 1.
Proof.
  intros H. rewrite len3_nrm in H. pose proof (nrm_sq 3 (vR v)) as Q. assert (Z : nrm 3 (vR v) <> 0) by lra.
  assert (E : vR v 0 / nrm 3 (vR v) * (vR v 0 / nrm 3 (vR v)) + vR v 1 / nrm 3 (vR v) * (vR v 1 / nrm 3 (vR v)) + vR v 2 / nrm 3 (vR v) * (vR v 2 / nrm 3 (vR v)) = 1).
  { unfold sq_sum in Q. lazy [sumn add mul zero R_Num] in Q.
    transitivity ((0 + vR v 0 * vR v 0 + vR v 1 * vR v 1 + vR v 2 * vR v 2) / (nrm 3 (vR v) * nrm 3 (vR v))); [field; exact Z|rewrite <- Q; field; exact Z]. }
  unfold dir3. rewrite len3_nrm. split.
  - rewrite <- E. reflexivity.
  - rewrite <- E. unfold sq_sum. lazy [sumn add mul zero R_Num vfun List.nth List.map alist ahd atl acons anil fst snd vR]. ring.
Qed.

Lemma dir_val (v : V3 fl) : norm_ok v -> exists w, v3_normalize v = Ok (Some w) /\
  forall k, (k < 3)%nat -> vfun w k = Bdiv mode_NE (vfun v k) (v3_norm2 v) /\ is_finite (vfun w k) = true /\ Rabs (B2R (vfun w k) - vfun (dir3 v) k) <= 39 / 10 * uro * Rabs (vfun (dir3 v) k) + eta.
Proof.
  intros [F H]. destruct (d_vnormalize_fl D3 v) as (w & Ew & Hw).
  { destruct (Beqb (d_vnorm2 D3 v) (B754_zero false)) eqn:Z; [ |reflexivity]. exfalso. change (d_vnorm2 D3 v) with (v3_norm2 v) in Z.
    rewrite Beqb_correct in Z by (assumption || reflexivity). destruct (Req_bool_spec (B2R (v3_norm2 v)) (B2R (B754_zero false : fl))) as [E|E]; [ |discriminate].
    cbn [B2R] in E. rewrite E in H. pose proof (FloatFacts.eta_pos (prec := prec) (emax := emax)). lra. }
  destruct (c90_vector_normalize Hp11 He4 D3 v F H) as (w' & Ew' & _ & K). rewrite Ew in Ew'. injection Ew' as <-.
  exists w. split; [exact Ew| ]. intros k Hk. split; [exact (Hw k Hk)| ]. destruct (K k Hk) as [F2 E]. split; [exact F2| ].
  assert (V : vfun (dir3 v) k = B2R (vfun v k) / sqrt (sq_sum 3 (fun k => B2R (vfun v k)))).
  { change (sqrt (sq_sum 3 (fun k => B2R (vfun v k)))) with (nrm 3 (vR v)). rewrite <- len3_nrm. destruct k as [ |[ |[ |k]]]; [reflexivity..|lia]. }
  rewrite V. cbn [dimn] in E. eapply Rle_trans; [exact E| ]. apply Rplus_le_compat_r, Rmult_le_compat_r; [apply Rabs_pos| ].
  pose proof (uro_pos (prec := prec)). apply Rmult_le_compat_r; [lra|cbn; lra].
Qed.

Lemma rotation_polar : forall e (theta : fl) (v : V3 fl), is_finite theta = true -> norm_ok v -> trig_ok e (div theta (add one one)) -> e <= / 250 ->
  exists q : Quaternion fl, q_rotation theta v = Ok q /\ normalized q = true /\ v3_dot (dir3 v) (dir3 v) = 1 /\
  close4 (142 / 100 * e + 5 * uro) q (q_new (cos (B2R theta / 2)) (v3_scale (dir3 v) (sin (B2R theta / 2)))).
Proof.
  intros e theta v Ft Nv T Le. pose proof (trig_pos _ _ T) as E0. destruct (two_val (emax := emax) Hp11) as [F2 V2].
  destruct (trig_half e theta _ Ft F2 V2 T) as [[Fs Es] [Fc Ec]]. destruct (norm_val v Nv) as [Np _]. destruct (dir_unit v Np) as [DU DS].
  destruct (dir_val v Nv) as (w & Ew & Hw).
  pose proof (uro_small Hp11) as U. pose proof (uro_pos (prec := prec)) as P. pose proof (eta_tiny Hp11 He4) as Ht. assert (T0 : 0 <= eta) by apply eta_pos.
  set (e1 := e + eta) in *. assert (L1 : e1 <= / 200) by (unfold e1; lra). assert (Z1 : 0 <= e1) by (unfold e1; lra).
  set (s := fsin (div theta (add one one))) in *. set (c := fcos (div theta (add one one))) in *.
  exists (mkQ c (v3_scale w s) true).
  split; [unfold q_rotation; rewrite Ew; reflexivity|split; [reflexivity|split; [exact DU| ]]].
  set (S := sin (B2R theta / 2)) in *. set (C := cos (B2R theta / 2)) in *.
  assert (BS : Rabs S <= 1) by (apply Rabs_le; pose proof (SIN_bound (B2R theta / 2)); unfold S; lra).
  assert (Bs : Rabs (B2R s) <= 1005 / 1000) by (replace (B2R s) with ((B2R s - S) + S) by ring; eapply Rle_trans; [apply Rabs_triang|lra]).
  set (a := vfun (dir3 v)) in *.
  assert (Ba : forall k, (k < 3)%nat -> Rabs (a k) <= 1).
  { intros k Hk. eapply Rle_trans; [exact (comp_nrm 3 a k Hk)| ]. unfold nrm. rewrite DS, sqrt_1. lra. }
  assert (G : forall k, (k < 3)%nat -> is_finite (mul (vfun w k) s) = true /\ Rabs (B2R (mul (vfun w k) s) - a k * S) <= Rabs (a k) * (e1 + 494 / 100 * uro) + 22 / 10 * eta).
  { intros k Hk. destruct (Hw k Hk) as (_ & Fw & Ek). pose proof (Ba k Hk) as B. pose proof (Rabs_pos (a k)) as B0.
    assert (UA : 39 / 10 * uro * Rabs (a k) <= 39 / 10 * uro * 1) by (apply Rmult_le_compat_l; lra).
    assert (Bw : Rabs (B2R (vfun w k)) <= 1003 / 1000).
    { replace (B2R (vfun w k)) with ((B2R (vfun w k) - a k) + a k) by ring. eapply Rle_trans; [apply Rabs_triang|lra]. }
    assert (Bws : Rabs (B2R (vfun w k) * B2R s) <= Rabs (B2R (vfun w k)) * (1005 / 1000)) by (rewrite Rabs_mult; apply Rmult_le_compat_l; [apply Rabs_pos|exact Bs]).
    destruct (mul_ok (vfun w k) s Fw Fs ltac:(lra)) as [M1 M2]. split; [exact M1| ].
    replace (B2R (mul (vfun w k) s) - a k * S) with ((B2R (mul (vfun w k) s) - B2R (vfun w k) * B2R s) + ((B2R (vfun w k) - a k) * B2R s + a k * (B2R s - S))) by ring.
    eapply Rle_trans; [apply Rabs_triang| ]. eapply Rle_trans; [apply Rplus_le_compat_l, Rabs_triang| ]. rewrite !(Rabs_mult _ (B2R s)), (Rabs_mult (a k)).
    assert (X1 : Rabs (B2R (vfun w k) - a k) * Rabs (B2R s) <= (39 / 10 * uro * Rabs (a k) + eta) * (1005 / 1000)) by (apply Rmult_le_compat; try apply Rabs_pos; assumption).
    assert (X2 : Rabs (a k) * Rabs (B2R s - S) <= Rabs (a k) * e1) by (apply Rmult_le_compat_l; assumption).
    assert (X3 : Rabs (B2R (vfun w k)) <= Rabs (a k) + (39 / 10 * uro * Rabs (a k) + eta)).
    { replace (B2R (vfun w k)) with (a k + (B2R (vfun w k) - a k)) by ring. eapply Rle_trans; [apply Rabs_triang|lra]. }
    assert (X4 : 39 / 10 * uro * Rabs (a k) <= 39 / 10 * / 2048 * Rabs (a k)) by (apply Rmult_le_compat_r; lra).
    assert (X5 : uro * Rabs (B2R (vfun w k) * B2R s) <= uro * ((1002 / 1000 * Rabs (a k) + eta) * (1005 / 1000))) by (apply Rmult_le_compat_l; lra).
    assert (X6 : uro * eta <= / 2048 * eta) by (apply Rmult_le_compat_r; lra).
    set (A := Rabs (a k)) in *. assert (X7 : 0 <= uro * A) by (apply Rmult_le_pos; lra).
    replace (A * (e1 + 494 / 100 * uro)) with (A * e1 + 494 / 100 * (uro * A)) by ring. lra. }
  assert (W : vfun (v3_scale w s) = fun k => vfun (v3_scale w s) k) by reflexivity.
  assert (QC : forall k, (k < 3)%nat -> qcomp (Datatypes.S k) (mkQ c (v3_scale w s) true) = mul (vfun w k) s) by (intros k Hk; destruct w as (w0&w1&w2&[]); destruct k as [ |[ |[ |k]]]; [reflexivity..|lia]).
  assert (QR : forall k, (k < 3)%nat -> rq (q_new C (v3_scale (dir3 v) S)) (Datatypes.S k) = a k * S) by (intros k Hk; destruct k as [ |[ |[ |k]]]; [reflexivity..|lia]).
  split.
  - intros k Hk. destruct k as [ |k]; [exact Fc| ]. rewrite (QC k ltac:(lia)). apply (G k ltac:(lia)).
  - rewrite close4_nrm.
    set (f1 := fun k => match k with 0%nat => e1 | Datatypes.S k => Rabs (a k) * e1 end). set (f2 := fun k => match k with 0%nat => 0 | Datatypes.S k => Rabs (a k) * (494 / 100 * uro) + 22 / 10 * eta end).
    eapply Rle_trans; [apply (nrm_mono 4 _ (fun k => f1 k + f2 k))| ].
    + intros k Hk. destruct k as [ |k].
      * unfold f1, f2. rewrite Rplus_0_r. exact Ec.
      * unfold qR. rewrite (QC k ltac:(lia)), (QR k ltac:(lia)). unfold f1, f2. destruct (G k ltac:(lia)) as [_ G2]. eapply Rle_trans; [exact G2| ]. lra.
    + eapply Rle_trans; [apply nrm_plus| ].
      assert (Q : forall z, Rabs z * Rabs z = z * z) by (intros z; rewrite <- Rabs_mult; apply Rabs_pos_eq; nra).
      assert (DS' : a 0%nat * a 0%nat + a 1%nat * a 1%nat + a 2%nat * a 2%nat = 1) by (rewrite <- DS; unfold sq_sum; lazy [sumn add mul zero R_Num]; ring).
      assert (K1 : nrm 4 f1 <= 14143 / 10000 * e1).
      { apply nrm_le; [lra| ]. unfold sq_sum, f1. lazy [sumn add mul zero R_Num].
        replace (0 + e1 * e1 + Rabs (a 0%nat) * e1 * (Rabs (a 0%nat) * e1) + Rabs (a 1%nat) * e1 * (Rabs (a 1%nat) * e1) + Rabs (a 2%nat) * e1 * (Rabs (a 2%nat) * e1))
          with (e1 * e1 * (1 + (Rabs (a 0%nat) * Rabs (a 0%nat) + Rabs (a 1%nat) * Rabs (a 1%nat) + Rabs (a 2%nat) * Rabs (a 2%nat)))) by ring.
        rewrite !Q, DS'. nra. }
      assert (K2 : nrm 4 f2 <= 496 / 100 * uro).
      { eapply Rle_trans; [apply (nrm_mono 4 _ (fun k => match k with 0%nat => 0 | Datatypes.S k => 494 / 100 * uro * Rabs (a k) end + 22 / 10 * eta)); intros k Hk; unfold f2; destruct k as [ |k];
          [rewrite Rabs_R0; lra|rewrite Rabs_pos_eq; [lra|apply Rplus_le_le_0_compat; [apply Rmult_le_pos; [apply Rabs_pos|lra]|lra]]]| ].
        eapply Rle_trans; [apply (nrm_plus 4 (fun k => match k with 0%nat => 0 | Datatypes.S k => 494 / 100 * uro * Rabs (a k) end) (fun _ => 22 / 10 * eta))| ].
        assert (J1 : nrm 4 (fun k => match k with 0%nat => 0 | Datatypes.S k => 494 / 100 * uro * Rabs (a k) end) <= 494 / 100 * uro).
        { apply nrm_le; [lra| ]. unfold sq_sum. lazy [sumn add mul zero R_Num]. apply Req_le.
          replace (494 / 100 * uro * (494 / 100 * uro)) with (494 / 100 * uro * (494 / 100 * uro) * (a 0%nat * a 0%nat + a 1%nat * a 1%nat + a 2%nat * a 2%nat)) by (rewrite DS'; ring).
          rewrite <- (Q (a 0%nat)), <- (Q (a 1%nat)), <- (Q (a 2%nat)). ring. }
        assert (J2 : nrm 4 (fun _ => 22 / 10 * eta) <= 2 * (22 / 10 * eta)) by (apply nrm_le; [lra| ]; unfold sq_sum; lazy [sumn add mul zero R_Num]; lra).
        lra. }
      unfold e1 in K1. lra.
Qed.

Lemma c96_rotation : forall e (theta : fl) (v : V3 fl), is_finite theta = true -> norm_ok v -> trig_ok e (div theta (add one one)) -> e <= / 250 ->
  exists (q : Quaternion fl) (A : Quaternion R), q_rotation theta v = Ok q /\ normalized q = true /\
  unit_quat A /\ q_to_rotation A = rodrigues (dir3 v) (B2R theta) /\ close4 (142 / 100 * e + 5 * uro) q A.
Proof.
  intros e theta v Ft Nv T Le. destruct (rotation_polar e theta v Ft Nv T Le) as (q & Eq & Nq & DU & C).
  exists q, (q_new (cos (B2R theta / 2)) (v3_scale (dir3 v) (sin (B2R theta / 2)))).
  split; [exact Eq|split; [exact Nq|split; [apply half_angle_quat_unit, DU|split; [apply half_angle_quat_rotation, DU|exact C]]]].
Qed.

(** ** float matrices entry by entry, in the Frobenius norm *)
Definition finm (m : M33 fl) : Prop := forall i j, (i < 3)%nat -> (j < 3)%nat -> is_finite (mfun m i j) = true.

Lemma fm_scale (m : M33 fl) (s : fl) : finm m -> is_finite s = true -> fnorm (mR m) <= 10 -> Rabs (B2R s) <= 10 ->
  finm (m33_scale m s) /\ dst (mR (m33_scale m s)) (fun i j => B2R s * mR m i j) <= uro * (Rabs (B2R s) * fnorm (mR m)) + 3 * eta.
Proof.
  intros F Fs L Ls. pose proof (uro_pos (prec := prec)) as P. assert (T0 : 0 <= eta) by apply eta_pos.
  assert (V : forall i j, (i < 3)%nat -> (j < 3)%nat -> mfun (m33_scale m s) i j = mul (mfun m i j) s).
  { intros i j Hi Hj. clear - Hi Hj. destruct m as ((r00&r01&r02&[])&(r10&r11&r12&[])&(r20&r21&r22&[])&[]). destruct i as [ |[ |[ |i]]]; destruct j as [ |[ |[ |j]]]; reflexivity || (exfalso; lia). }
  assert (G : forall i j, (i < 3)%nat -> (j < 3)%nat -> is_finite (mfun (m33_scale m s) i j) = true /\ Rabs (mR (m33_scale m s) i j - B2R s * mR m i j) <= uro * Rabs (B2R s * mR m i j) + eta).
  { intros i j Hi Hj. unfold mR. rewrite (V i j Hi Hj). pose proof (fnorm_entry (mR m) i j Hi Hj) as A. unfold mR in A.
    assert (Rabs (B2R (mfun m i j) * B2R s) <= 100) by (rewrite Rabs_mult; replace 100 with (10 * 10) by ring; apply Rmult_le_compat; try apply Rabs_pos; lra || assumption || (eapply Rle_trans; eassumption)).
    rewrite (Rmult_comm (B2R s)). apply mul_ok; [exact (F i j Hi Hj)|assumption|assumption]. }
  split; [intros i j Hi Hj; apply (G i j Hi Hj)| ]. unfold dst.
  eapply Rle_trans; [apply (fnorm_mono _ (fun i j => uro * Rabs (B2R s * mR m i j) + eta)); intros i j Hi Hj; apply (G i j Hi Hj)| ].
  eapply Rle_trans; [apply (fnorm_plus (fun i j => uro * Rabs (B2R s * mR m i j)) (fun _ _ => eta))| ].
  apply Rplus_le_compat; [ |apply fnorm_all; [lra|intros; rewrite Rabs_pos_eq by lra; lra]].
  rewrite (fnorm_scal uro), (Rabs_pos_eq uro) by lra. apply Rmult_le_compat_l; [lra| ].
  rewrite <- (fnorm_scal (B2R s)). apply Req_le. apply fnorm_abs.
Qed.

Lemma fm_add (a b : M33 fl) : finm a -> finm b -> fnorm (fun i j => mR a i j + mR b i j) <= 100 ->
  finm (m33_add a b) /\ dst (mR (m33_add a b)) (fun i j => mR a i j + mR b i j) <= uro * fnorm (fun i j => mR a i j + mR b i j).
Proof.
  intros F F' L. pose proof (uro_pos (prec := prec)) as P.
  assert (V : forall i j, (i < 3)%nat -> (j < 3)%nat -> mfun (m33_add a b) i j = add (mfun a i j) (mfun b i j)).
  { intros i j Hi Hj. clear - Hi Hj. destruct a as ((r00&r01&r02&[])&(r10&r11&r12&[])&(r20&r21&r22&[])&[]), b as ((s00&s01&s02&[])&(s10&s11&s12&[])&(s20&s21&s22&[])&[]).
    destruct i as [ |[ |[ |i]]]; destruct j as [ |[ |[ |j]]]; reflexivity || (exfalso; lia). }
  assert (G : forall i j, (i < 3)%nat -> (j < 3)%nat -> is_finite (mfun (m33_add a b) i j) = true /\ Rabs (mR (m33_add a b) i j - (mR a i j + mR b i j)) <= uro * Rabs (mR a i j + mR b i j)).
  { intros i j Hi Hj. unfold mR. rewrite (V i j Hi Hj). pose proof (fnorm_entry (fun i j => mR a i j + mR b i j) i j Hi Hj) as A. cbv beta in A. unfold mR in A.
    apply (add_ok Hp11 He4); [exact (F i j Hi Hj)|exact (F' i j Hi Hj)| ]. eapply Rle_trans; [exact A|exact L]. }
  split; [intros i j Hi Hj; apply (G i j Hi Hj)| ]. unfold dst.
  eapply Rle_trans; [apply (fnorm_mono _ (fun i j => uro * Rabs (mR a i j + mR b i j))); intros i j Hi Hj; apply (G i j Hi Hj)| ].
  rewrite (fnorm_scal uro), (Rabs_pos_eq uro) by lra. apply Rmult_le_compat_l; [lra| ]. apply Req_le, fnorm_abs.
Qed.

Lemma fm_mul (a b : M33 fl) : finm a -> finm b -> (forall i j, (i < 3)%nat -> (j < 3)%nat -> Rabs (mR a i j) <= 101 / 100) -> (forall i j, (i < 3)%nat -> (j < 3)%nat -> Rabs (mR b i j) <= 101 / 100) ->
  finm (m33_mul a b) /\ dst (mR (m33_mul a b)) (mm (mR a) (mR b)) <= 301 / 100 * uro * (fnorm (mR a) * fnorm (mR b)) + 12 * eta.
Proof.
  intros F F' B B'. pose proof (uro_pos (prec := prec)) as P. assert (T0 : 0 <= eta) by apply eta_pos.
  assert (L : forall i j, (i < 3)%nat -> (j < 3)%nat -> is_finite (mfun (m33_mul a b) i j) = true /\
    Rabs (mR (m33_mul a b) i j - mm (mR a) (mR b) i j) <= 301 / 100 * uro * aap (mR a) (fun k => mR b k j) i + 4 * eta).
  { intros i j Hi Hj. rewrite (mfun_mul a b i j Hi Hj). unfold mR at 1. rewrite (mfun_mul a b i j Hi Hj).
    destruct (big_b Hp11 He4) as (g & Eb & B1 & _).
    assert (V : forall k, (k < 3)%nat -> vfun ([| mfun b 0 j; mfun b 1 j; mfun b 2 j |] : V3 fl) k = mfun b k j) by (intros k Hk; destruct k as [ |[ |[ |k]]]; [reflexivity..|lia]).
    destruct (linear_err Hp11 He4 a [| mfun b 0 j; mfun b 1 j; mfun b 2 j |] g Eb) with (i := i) as [G1 G2]; [ | |exact Hi|split; [exact G1|exact G2]].
    - intros x c Hx Hc. split; [exact (F x c Hx Hc)| ]. pose proof (B x c Hx Hc). lra.
    - intros k Hk. unfold vR. rewrite (V k Hk). split; [exact (F' k j Hk Hj)| ]. pose proof (B' k j Hk Hj) as A. unfold mR in A. lra. }
  split; [intros i j Hi Hj; apply (L i j Hi Hj)| ].
  unfold dst. eapply Rle_trans; [apply (fnorm_mono _ (fun i j => 301 / 100 * uro * aap (mR a) (fun k => mR b k j) i + 4 * eta)); intros i j Hi Hj; apply (L i j Hi Hj)| ].
  eapply Rle_trans; [apply (fnorm_plus (fun i j => 301 / 100 * uro * aap (mR a) (fun k => mR b k j) i) (fun _ _ => 4 * eta))| ].
  rewrite (fnorm_scal (301 / 100 * uro) (fun i j => aap (mR a) (fun k => mR b k j) i)), Rabs_pos_eq by lra.
  pose proof (fnorm_aap (mR a) (mR b)) as A.
  assert (A3 : fnorm (fun _ _ => 4 * eta) <= 3 * (4 * eta)) by (apply fnorm_all; [lra|intros; rewrite Rabs_pos_eq by lra; lra]).
  apply Rplus_le_compat; [ |lra]. apply Rmult_le_compat_l; lra.
Qed.

(** the formula of Rodrigues, evaluated on a float matrix close to the cross-product matrix of a unit vector *)
Definition rod_fl (S : M33 fl) (s c : fl) : M33 fl := m33_add (m33_add m33_identity (m33_scale S s)) (m33_scale (m33_mul S S) (sub one c)).

Lemma rod_core (a : V3 R) (t e d : R) (S : M33 fl) (s c : fl) : v3_dot a a = 1 -> close3 d S (skew_from_vec a) -> d <= / 100 -> e <= / 250 ->
  is_finite s = true -> is_finite c = true -> Rabs (B2R s - sin t) <= e -> Rabs (B2R c - cos t) <= e ->
  close3 (29 / 10 * e + 7 * d + 26 * uro) (rod_fl S s c) (rodrigues a t).
Proof.
  intros Ua [FS CS] Ld Le Fs Fc Es Ec. rewrite close_dst in CS. set (K := mfun (skew_from_vec a)) in *. fold (finm S) in FS.
  pose proof (uro_small Hp11) as U. pose proof (uro_pos (prec := prec)) as P. pose proof (eta_tiny Hp11 He4) as Ht. assert (T0 : 0 <= eta) by apply eta_pos.
  assert (E0 : 0 <= e) by (pose proof (Rabs_pos (B2R s - sin t)); lra). pose proof (dst_pos (mR S) K) as d0.
  assert (NK : fnorm K * fnorm K = 2).
  { rewrite fnorm_fro. unfold K. revert Ua. clear. destruct a as (x&y&z&[]). intros Ua.
    assert (Ua' : x * x + y * y + z * z = 1) by exact Ua. replace 2 with (2 * (x * x + y * y + z * z)) by lra. unfold fro2, sq_sum. 
    lazy [sumn mfun skew_from_vec List.nth List.map alist ahd atl acons anil fst snd vfun ix0 ix1 ix2 neg zero add mul R_Num R_Signed Nat.div Nat.modulo Nat.divmod Nat.sub]. ring. }
  assert (NK2 : fnorm (mm K K) * fnorm (mm K K) = 2).
  { rewrite fnorm_fro. unfold K. revert Ua. clear. destruct a as (x&y&z&[]). intros Ua.
    assert (Ua' : x * x + y * y + z * z = 1) by exact Ua. replace 2 with (2 * (x * x + y * y + z * z) * (x * x + y * y + z * z)) by (rewrite Ua'; ring). unfold fro2, sq_sum, mm. 
    lazy [sumn mfun skew_from_vec List.nth List.map alist ahd atl acons anil fst snd vfun ix0 ix1 ix2 neg zero add mul R_Num R_Signed Nat.div Nat.modulo Nat.divmod Nat.sub]. ring. }
  assert (BK : fnorm K <= 14143 / 10000) by (pose proof (fnorm_pos K); nra). assert (BK2 : fnorm (mm K K) <= 14143 / 10000) by (pose proof (fnorm_pos (mm K K)); nra).
  clear NK NK2. pose proof (fnorm_pos K) as K0. pose proof (fnorm_pos (mm K K)) as KK0.
  assert (BS : fnorm (mR S) <= fnorm K + dst (mR S) K) by apply fnorm_dst. pose proof (fnorm_pos (mR S)) as S0.
  set (D := dst (mR S) K) in *.
  pose proof (SIN_bound t) as SB. pose proof (COS_bound t) as CB. set (sn := sin t) in *. set (cn := cos t) in *.
  assert (Bs : Rabs (B2R s) <= 1004 / 1000) by (replace (B2R s) with ((B2R s - sn) + sn) by ring; eapply Rle_trans; [apply Rabs_triang| ]; assert (Rabs sn <= 1) by (apply Rabs_le; lra); lra).
  assert (Bc : Rabs (1 - B2R c) <= 2004 / 1000) by (replace (1 - B2R c) with ((1 - cn) - (B2R c - cn)) by ring; eapply Rle_trans; [apply Rabs_triang| ]; rewrite Rabs_Ropp; assert (Rabs (1 - cn) <= 2) by (apply Rabs_le; lra); lra).
  destruct one_val as [F1 V1].
  destruct (sub_ok Hp11 He4 one c F1 Fc) as [Ff Ef]; [rewrite V1; lra| ]. rewrite V1 in Ef. set (f := sub one c) in *.
  assert (Ef1 : Rabs (B2R f - (1 - cn)) <= e + 2004 / 1000 * uro).
  { replace (B2R f - (1 - cn)) with ((B2R f - (1 - B2R c)) - (B2R c - cn)) by ring. eapply Rle_trans; [apply Rabs_triang| ]. rewrite Rabs_Ropp.
    assert (uro * Rabs (1 - B2R c) <= uro * (2004 / 1000)) by (apply Rmult_le_compat_l; lra). lra. }
  assert (Bf : Rabs (B2R f) <= 201 / 100) by (replace (B2R f) with ((B2R f - (1 - cn)) + (1 - cn)) by ring; eapply Rle_trans; [apply Rabs_triang| ]; assert (Rabs (1 - cn) <= 2) by (apply Rabs_le; lra); lra).
  (* sin * S *)
  destruct (fm_scale S s FS Fs ltac:(lra) ltac:(lra)) as [F1s E1]. set (P1 := m33_scale S s) in *.
  assert (Q1 : dst (mR P1) (fun i j => sn * K i j) <= 1005 / 1000 * D + 14143 / 10000 * e + 144 / 100 * uro).
  { eapply Rle_trans; [apply (dst_tri _ (fun i j => B2R s * mR S i j))| ].
    assert (X : dst (fun i j => B2R s * mR S i j) (fun i j => sn * K i j) <= 1004 / 1000 * D + e * (14143 / 10000)).
    { unfold dst. rewrite (fnorm_ext _ (fun i j => B2R s * (mR S i j - K i j) + (B2R s - sn) * K i j)) by (intros; ring).
      eapply Rle_trans; [apply (fnorm_plus (fun i j => B2R s * (mR S i j - K i j)) (fun i j => (B2R s - sn) * K i j))| ].
      rewrite (fnorm_scal (B2R s) (fun i j => mR S i j - K i j)), (fnorm_scal (B2R s - sn) K). fold (dst (mR S) K). fold D.
      apply Rplus_le_compat; [apply Rmult_le_compat_r; assumption|apply Rmult_le_compat; [apply Rabs_pos|assumption|assumption|assumption]]. }
    assert (Y : Rabs (B2R s) * fnorm (mR S) <= 1004 / 1000 * (1425 / 1000)) by (apply Rmult_le_compat; try apply Rabs_pos; lra).
    assert (uro * (Rabs (B2R s) * fnorm (mR S)) <= uro * (1004 / 1000 * (1425 / 1000))) by (apply Rmult_le_compat_l; lra). lra. }
  (* S * S *)
  assert (KE : forall i j, (i < 3)%nat -> (j < 3)%nat -> Rabs (K i j) <= 1).
  { intros i j Hi Hj. unfold K. revert Ua. clear - Hi Hj. destruct a as (x&y&z&[]). intros Ua. assert (Ua' : x * x + y * y + z * z = 1) by exact Ua.
    assert (GG : forall w, w * w <= 1 -> Rabs w <= 1) by (intros w Hw; apply Rabs_le; split; nra).
    apply GG. destruct i as [ |[ |[ |i]]]; [ | | |lia]; (destruct j as [ |[ |[ |j]]]; [ | | |lia]);
      lazy [mfun skew_from_vec List.nth List.map alist ahd atl acons anil fst snd vfun ix0 ix1 ix2 neg zero add mul R_Num R_Signed]; nra. }
  assert (SE : forall i j, (i < 3)%nat -> (j < 3)%nat -> Rabs (mR S i j) <= 101 / 100).
  { intros i j Hi Hj. pose proof (fnorm_entry (fun i j => mR S i j - K i j) i j Hi Hj) as A2. cbv beta in A2. fold (dst (mR S) K) in A2. fold D in A2. pose proof (KE i j Hi Hj).
    replace (mR S i j) with ((mR S i j - K i j) + K i j) by ring. eapply Rle_trans; [apply Rabs_triang|lra]. }
  destruct (fm_mul S S FS FS SE SE) as [F2 E2]. set (P2 := m33_mul S S) in *.
  assert (Q2 : dst (mR P2) (mm K K) <= 284 / 100 * D + 613 / 100 * uro).
  { eapply Rle_trans; [apply (dst_tri _ (mm (mR S) (mR S)))| ].
    assert (X : dst (mm (mR S) (mR S)) (mm K K) <= fnorm (mR S) * D + D * fnorm K).
    { unfold dst. rewrite (fnorm_ext _ (fun i j => mm (mR S) (fun i j => mR S i j - K i j) i j + mm (fun i j => mR S i j - K i j) K i j)) by (intros; unfold mm; ring).
      eapply Rle_trans; [apply fnorm_plus| ]. apply Rplus_le_compat; apply fnorm_mm. }
    assert (Y : fnorm (mR S) * D <= 1425 / 1000 * D) by (apply Rmult_le_compat_r; lra). assert (Y2 : D * fnorm K <= D * (1415 / 1000)) by (apply Rmult_le_compat_l; lra).
    assert (Y3 : fnorm (mR S) * fnorm (mR S) <= 1425 / 1000 * (1425 / 1000)) by (apply Rmult_le_compat; lra).
    assert (301 / 100 * uro * (fnorm (mR S) * fnorm (mR S)) <= 301 / 100 * uro * (1425 / 1000 * (1425 / 1000))) by (apply Rmult_le_compat_l; lra). lra. }
  (* (1 - cos) * S * S *)
  assert (B2 : fnorm (mR P2) <= 1450 / 1000) by (eapply Rle_trans; [apply (fnorm_dst _ (mm K K))|lra]).
  destruct (fm_scale P2 f F2 Ff ltac:(lra) ltac:(lra)) as [F3 E3]. set (P3 := m33_scale P2 f) in *. pose proof (fnorm_pos (mR P2)) as P20.
  assert (Q3 : dst (mR P3) (fun i j => (1 - cn) * mm K K i j) <= 572 / 100 * D + 14143 / 10000 * e + 1808 / 100 * uro).
  { eapply Rle_trans; [apply (dst_tri _ (fun i j => B2R f * mR P2 i j))| ].
    assert (X : dst (fun i j => B2R f * mR P2 i j) (fun i j => (1 - cn) * mm K K i j) <= 201 / 100 * (284 / 100 * D + 613 / 100 * uro) + (e + 2004 / 1000 * uro) * (14143 / 10000)).
    { unfold dst. rewrite (fnorm_ext _ (fun i j => B2R f * (mR P2 i j - mm K K i j) + (B2R f - (1 - cn)) * mm K K i j)) by (intros; ring).
      eapply Rle_trans; [apply (fnorm_plus (fun i j => B2R f * (mR P2 i j - mm K K i j)) (fun i j => (B2R f - (1 - cn)) * mm K K i j))| ].
      rewrite (fnorm_scal (B2R f) (fun i j => mR P2 i j - mm K K i j)), (fnorm_scal (B2R f - (1 - cn)) (mm K K)). fold (dst (mR P2) (mm K K)).
      pose proof (dst_pos (mR P2) (mm K K)) as D2.
      apply Rplus_le_compat; (apply Rmult_le_compat; [apply Rabs_pos|assumption|assumption|assumption]). }
    assert (Y : Rabs (B2R f) * fnorm (mR P2) <= 201 / 100 * (1450 / 1000)) by (apply Rmult_le_compat; try apply Rabs_pos; lra).
    assert (uro * (Rabs (B2R f) * fnorm (mR P2)) <= uro * (201 / 100 * (1450 / 1000))) by (apply Rmult_le_compat_l; lra). lra. }
  (* I + sin * S *)
  assert (FI : finm m33_identity) by (intros i j Hi Hj; clear - Hi Hj; destruct i as [ |[ |[ |i]]]; [ | | |lia]; (destruct j as [ |[ |[ |j]]]; [ | | |lia]); reflexivity || apply one_val).
  assert (VI : forall i j, (i < 3)%nat -> (j < 3)%nat -> mR m33_identity i j = dlt i j).
  { intros i j Hi Hj. clear - Hi Hj Hp11. destruct (one_val) as [_ V1]. destruct i as [ |[ |[ |i]]]; [ | | |lia]; (destruct j as [ |[ |[ |j]]]; [ | | |lia]); exact V1 || reflexivity. }
  assert (NI : fnorm (mR m33_identity) <= 17321 / 10000).
  { rewrite (fnorm_ext _ dlt) by exact VI. apply fnorm_le; [lra| ]. unfold fro2. lazy [sumn dlt Nat.eqb add zero mul R_Num sq_sum]. lra. }
  assert (NsK : fnorm (fun i j => sn * K i j) <= 14143 / 10000).
  { rewrite (fnorm_scal sn K). assert (Rabs sn <= 1) by (apply Rabs_le; lra). pose proof (Rabs_pos sn). assert (Rabs sn * fnorm K <= 1 * fnorm K) by (apply Rmult_le_compat_r; lra). lra. }
  assert (N1 : fnorm (mR P1) <= 145 / 100) by (eapply Rle_trans; [apply (fnorm_dst _ (fun i j => sn * K i j))|lra]).
  pose proof (fnorm_plus (mR m33_identity) (mR P1)) as N4.
  destruct (fm_add m33_identity P1 FI F1s ltac:(lra)) as [F4 E4]. set (P4 := m33_add m33_identity P1) in *.
  assert (E4' : dst (mR P4) (fun i j => mR m33_identity i j + mR P1 i j) <= 32 / 10 * uro).
  { eapply Rle_trans; [exact E4| ]. rewrite (Rmult_comm (32 / 10)). apply Rmult_le_compat_l; lra. }
  (* the sum *)
  set (RR := fun i j => dlt i j + sn * K i j + (1 - cn) * mm K K i j).
  assert (ER : forall i j, (i < 3)%nat -> (j < 3)%nat -> mfun (rodrigues a t) i j = RR i j).
  { intros i j Hi Hj. unfold RR, K, sn, cn, mm. revert Ua. clear - Hi Hj. destruct a as (x&y&z&[]). intros Ua. assert (Ua' : x * x + y * y + z * z = 1) by exact Ua.
    assert (Ex : x * x = 1 - y * y - z * z) by lra.
    destruct i as [ |[ |[ |i]]]; [ | | |lia]; (destruct j as [ |[ |[ |j]]]; [ | | |lia]);
      lazy [mfun rodrigues skew_from_vec dlt Nat.eqb List.nth List.map alist ahd atl acons anil fst snd vfun ix0 ix1 ix2 neg zero one add mul R_Num R_Signed]; try ring;
      ring_simplify; replace (x ^ 2) with (1 - y * y - z * z) by lra; ring. }
  assert (NR : fnorm RR <= 17321 / 10000 + 0).
  { rewrite <- (fnorm_ext (mfun (rodrigues a t)) RR ER). assert (OR : orthR (mfun (rodrigues a t))) by apply SO3_orth, rodrigues_SO3, Ua.
    pose proof (fnorm_near (mfun (rodrigues a t)) (mfun (rodrigues a t)) OR) as Z. replace (dst (mfun (rodrigues a t)) (mfun (rodrigues a t))) with 0 in Z; [exact Z| ].
    unfold dst. rewrite (fnorm_ext _ (fun _ _ => 0 * 0)) by (intros; ring). rewrite (fnorm_scal 0 (fun _ _ => 0)), Rabs_R0. ring. }
  assert (Q5 : dst (fun i j => mR P4 i j + mR P3 i j) RR <= 32 / 10 * uro + (1005 / 1000 * D + 14143 / 10000 * e + 144 / 100 * uro) + (572 / 100 * D + 14143 / 10000 * e + 1808 / 100 * uro)).
  { unfold dst at 1. rewrite (fnorm_ext _ (fun i j => (fun i j => (mR P4 i j - (mR m33_identity i j + mR P1 i j)) + (mR P1 i j - sn * K i j)) i j + (mR P3 i j - (1 - cn) * mm K K i j)))
      by (intros i j Hi Hj; cbv beta; unfold RR; rewrite (VI i j Hi Hj); ring).
    eapply Rle_trans; [apply (fnorm_plus (fun i j => (mR P4 i j - (mR m33_identity i j + mR P1 i j)) + (mR P1 i j - sn * K i j)) (fun i j => mR P3 i j - (1 - cn) * mm K K i j))| ].
    apply Rplus_le_compat; [ |exact Q3]. 
    eapply Rle_trans; [apply (fnorm_plus (fun i j => mR P4 i j - (mR m33_identity i j + mR P1 i j)) (fun i j => mR P1 i j - sn * K i j))| ].
    apply Rplus_le_compat; [exact E4'|exact Q1]. }
  assert (N5 : fnorm (fun i j => mR P4 i j + mR P3 i j) <= 19 / 10) by (eapply Rle_trans; [apply (fnorm_dst _ RR)|lra]).
  destruct (fm_add P4 P3 F4 F3 ltac:(lra)) as [F5 E5].
  split; [exact F5| ]. rewrite close_dst. change (rod_fl S s c) with (m33_add P4 P3).
  assert (ED : dst (mR (m33_add P4 P3)) (mfun (rodrigues a t)) = dst (mR (m33_add P4 P3)) RR) by (unfold dst; apply fnorm_ext; intros i j Hi Hj; rewrite (ER i j Hi Hj); reflexivity).
  rewrite ED. eapply Rle_trans; [apply (dst_tri _ (fun i j => mR P4 i j + mR P3 i j))| ].
  assert (uro * fnorm (fun i j => mR P4 i j + mR P3 i j) <= uro * (19 / 10)) by (apply Rmult_le_compat_l; lra). lra.
Qed.

(** ** axis and angle *)
Lemma skew_dst (w : V3 fl) (a : V3 R) : dst (mR (skew_from_vec w)) (mfun (skew_from_vec a)) * dst (mR (skew_from_vec w)) (mfun (skew_from_vec a)) =
  2 * ((B2R (vfun w 0) - vfun a 0) ^ 2 + (B2R (vfun w 1) - vfun a 1) ^ 2 + (B2R (vfun w 2) - vfun a 2) ^ 2).
Proof.
  unfold dst. rewrite fnorm_fro. unfold fro2, sq_sum, mR. destruct w as (w0&w1&w2&[]), a as (x&y&z&[]).
  set (X0 := B2R w0). set (X1 := B2R w1). set (X2 := B2R w2).
  assert (N0 : B2R (neg w0) = - X0) by apply B2R_Bopp. assert (N1 : B2R (neg w1) = - X1) by apply B2R_Bopp. assert (N2 : B2R (neg w2) = - X2) by apply B2R_Bopp.
  assert (Z : B2R (zero : fl) = 0) by reflexivity.
  lazy [sumn mfun skew_from_vec List.nth List.map alist ahd atl acons anil fst snd vfun ix0 ix1 ix2 R_Num R_Signed Nat.div Nat.modulo Nat.divmod Nat.sub].
  rewrite N0, N1, N2, Z. fold X0 X1 X2. lazy [neg zero R_Signed R_Num add mul]. ring.
Qed.

Lemma c96_axis_angle : forall e d (omega : V3 fl) (theta : fl) (a : V3 R), v3_dot a a = 1 ->
  (forall k, (k < 3)%nat -> is_finite (vfun omega k) = true) ->
  sqrt ((B2R (vfun omega 0) - vfun a 0) ^ 2 + (B2R (vfun omega 1) - vfun a 1) ^ 2 + (B2R (vfun omega 2) - vfun a 2) ^ 2) <= d -> d <= / 150 ->
  trig_ok e theta -> e <= / 250 ->
  close3 (29 / 10 * e + 10 * d + 26 * uro) (rotation_from_axis_angle omega theta) (rodrigues a (B2R theta)).
Proof.
  intros e d w theta a Ua F Hd Ld [[Fs Es] [Fc Ec]] Le.
  set (q := (B2R (vfun w 0) - vfun a 0) ^ 2 + (B2R (vfun w 1) - vfun a 1) ^ 2 + (B2R (vfun w 2) - vfun a 2) ^ 2) in *.
  assert (q0 : 0 <= q) by (unfold q; repeat apply Rplus_le_le_0_compat; apply pow2_ge_0). pose proof (sqrt_pos q) as d0.
  assert (CS : close3 (14143 / 10000 * d) (skew_from_vec w) (skew_from_vec a)).
  { split.
    - clear - F. pose proof (F 0%nat ltac:(lia)) as F0. pose proof (F 1%nat ltac:(lia)) as F1. pose proof (F 2%nat ltac:(lia)) as F2. clear F.
      destruct w as (w0&w1&w2&[]). change (is_finite w0 = true) in F0. change (is_finite w1 = true) in F1. change (is_finite w2 = true) in F2.
      intros i j Hi Hj. destruct i as [ |[ |[ |i]]]; [ | | |lia]; (destruct j as [ |[ |[ |j]]]; [ | | |lia]); reflexivity || assumption || (transitivity (is_finite (Bopp w2)); [reflexivity|rewrite is_finite_Bopp; assumption])
        || (transitivity (is_finite (Bopp w1)); [reflexivity|rewrite is_finite_Bopp; assumption]) || (transitivity (is_finite (Bopp w0)); [reflexivity|rewrite is_finite_Bopp; assumption]).
    - rewrite close_dst. pose proof (skew_dst w a) as S. fold q in S. pose proof (dst_pos (mR (skew_from_vec w)) (mfun (skew_from_vec a))) as D0.
      set (D := dst (mR (skew_from_vec w)) (mfun (skew_from_vec a))) in *. rewrite <- (sqrt_sqrt q q0) in S. set (r := sqrt q) in *. clearbody D r.
      assert (D <= 14143 / 10000 * r) by nra. nra. }
  assert (L2 : 14143 / 10000 * d <= / 100) by lra.
  pose proof (rod_core a (B2R theta) e _ (skew_from_vec w) (fsin theta) (fcos theta) Ua CS L2 Le Fs Fc Es Ec) as G.
  change (rotation_from_axis_angle w theta) with (rod_fl (skew_from_vec w) (fsin theta) (fcos theta)).
  eapply close_weaken; [exact G| ]. lra.
Qed.

(** with a normalized float direction *)
Lemma c96_axis_angle_direction : forall e (v : V3 fl) (theta : fl), norm_ok v -> trig_ok e theta -> e <= / 250 ->
  exists w, v3_normalize v = Ok (Some w) /\ close3 (29 / 10 * e + 66 * uro) (rotation_from_axis_angle w theta) (rodrigues (dir3 v) (B2R theta)).
Proof.
  intros e v theta Nv T Le. destruct (norm_val v Nv) as [Np _]. destruct (dir_unit v Np) as [DU DS]. destruct (dir_val v Nv) as (w & Ew & Hw).
  exists w. split; [exact Ew| ]. pose proof (uro_small Hp11) as U. pose proof (uro_pos (prec := prec)) as P. pose proof (eta_tiny Hp11 He4) as Ht. assert (T0 : 0 <= eta) by apply eta_pos.
  set (a := vfun (dir3 v)) in *.
  assert (D : sqrt ((B2R (vfun w 0) - a 0%nat) ^ 2 + (B2R (vfun w 1) - a 1%nat) ^ 2 + (B2R (vfun w 2) - a 2%nat) ^ 2) <= 391 / 100 * uro).
  { replace (sqrt _) with (nrm 3 (fun k => B2R (vfun w k) - a k)) by (unfold nrm, sq_sum; f_equal; lazy [sumn add mul zero R_Num]; ring).
    eapply Rle_trans; [apply (nrm_mono 3 _ (fun k => 39 / 10 * uro * Rabs (a k) + eta)); intros k Hk; apply (Hw k Hk)| ].
    eapply Rle_trans; [apply (nrm_plus 3 (fun k => 39 / 10 * uro * Rabs (a k)) (fun _ => eta))| ].
    assert (Q : forall z, Rabs z * Rabs z = z * z) by (intros z; rewrite <- Rabs_mult; apply Rabs_pos_eq; nra).
    assert (DS' : a 0%nat * a 0%nat + a 1%nat * a 1%nat + a 2%nat * a 2%nat = 1) by (rewrite <- DS; unfold sq_sum; lazy [sumn add mul zero R_Num]; ring).
    assert (J1 : nrm 3 (fun k => 39 / 10 * uro * Rabs (a k)) <= 39 / 10 * uro).
    { apply nrm_le; [lra| ]. unfold sq_sum. lazy [sumn add mul zero R_Num]. apply Req_le.
      replace (39 / 10 * uro * (39 / 10 * uro)) with (39 / 10 * uro * (39 / 10 * uro) * (a 0%nat * a 0%nat + a 1%nat * a 1%nat + a 2%nat * a 2%nat)) by (rewrite DS'; ring).
      rewrite <- (Q (a 0%nat)), <- (Q (a 1%nat)), <- (Q (a 2%nat)). ring. }
    assert (J2 : nrm 3 (fun _ => eta) <= 2 * eta) by (apply nrm_le; [lra| ]; unfold sq_sum; lazy [sumn add mul zero R_Num]; nra). lra. }
  eapply close_weaken; [apply (c96_axis_angle e (391 / 100 * uro) w theta (dir3 v) DU); [intros k Hk; apply (Hw k Hk)|exact D|lra|exact T|exact Le]| ]. lra.
Qed.

(** ** the exponential *)
Lemma c96_exponential : forall e (v : V3 fl), norm_ok v -> nearly_zero (v3_norm2 v) = false -> trig_ok e (v3_norm2 v) -> e + 28 / 10 * uro * len3 v <= / 250 ->
  exists (m : M33 fl) (r : M33 R), matrix_exponential (skew_from_vec v) = Ok m /\
  is_mexp 3 (mfun (skew_from_vec [| B2R (vfun v 0); B2R (vfun v 1); B2R (vfun v 2) |])) (mfun r) /\ SO3 r /\
  close3 (29 / 10 * e + 82 / 10 * uro * len3 v + 66 * uro) m r.
Proof.
  intros e v Nv NZ T Le. destruct (norm_val v Nv) as [Np NV]. destruct (dir_unit v Np) as [DU DS]. destruct (dir_val v Nv) as (w & Ew & _).
  pose proof (uro_small Hp11) as U. pose proof (uro_pos (prec := prec)) as P. pose proof (eta_tiny Hp11 He4) as Ht. assert (T0 : 0 <= eta) by apply eta_pos.
  pose proof (trig_pos _ _ T) as E0. destruct T as [[Fs Es] [Fc Ec]]. destruct Nv as [Fn Hn]. set (n := v3_norm2 v) in *. set (N := len3 v) in *.
  exists (rod_fl (m33_div (skew_from_vec v) n) (fsin n) (fcos n)), (rodrigues (dir3 v) N).
  split; [ |split; [ |split; [apply rodrigues_SO3, DU| ]]].
  - unfold matrix_exponential. replace (skew_to_vec (skew_from_vec v)) with v by (destruct v as (v0&v1&v2&[]); reflexivity). fold n. rewrite NZ.
    unfold axis_angle. rewrite Ew. reflexivity.
  - assert (E : [| B2R (vfun v 0); B2R (vfun v 1); B2R (vfun v 2) |] = v3_scale (dir3 v) N).
    { assert (Q : forall k, (k < 3)%nat -> B2R (vfun v k) = B2R (vfun v k) / N * N) by (intros; field; lra).
      pose proof (Q 0%nat ltac:(lia)) as Q0. pose proof (Q 1%nat ltac:(lia)) as Q1. pose proof (Q 2%nat ltac:(lia)) as Q2. rewrite Q0, Q1, Q2 at 1. reflexivity. }
    rewrite E. apply (mexp_rodrigues (K := f64_consts)); [exact DU|lra].
  - assert (Nn : (1 - 28 / 10 * uro) * N <= B2R n <= (1 + 28 / 10 * uro) * N) by (apply Rabs_le_inv in NV; split; lra).
    assert (n0 : 0 < B2R n) by (eapply Rlt_le_trans; [ |apply Nn]; apply Rmult_lt_0_compat; lra).
    (* the divided matrix *)
    set (K := mfun (skew_from_vec (dir3 v))).
    assert (G : forall i j, (i < 3)%nat -> (j < 3)%nat -> exists x : fl, mfun (m33_div (skew_from_vec v) n) i j = Bdiv mode_NE x n /\ is_finite x = true /\ B2R x = N * K i j).
    { assert (FV : forall k, (k < 3)%nat -> is_finite (vfun v k) = true).
      { intros k Hk. assert (Ex : n = Bsqrt mode_NE (dotl 3 (vfun v) (vfun v))).
        { change n with (d_vnorm2 D3 v). rewrite d_vnorm2_root, d_vdot_dotl. reflexivity. }
        rewrite Ex in Fn. apply finite_root in Fn. destruct (dotl_error 3 (vfun v) (vfun v) ltac:(lia) Fn) as [Fa _]. apply (Fa k Hk). }
      pose proof (FV 0%nat ltac:(lia)) as F0. pose proof (FV 1%nat ltac:(lia)) as F1. pose proof (FV 2%nat ltac:(lia)) as F2. clear FV.
      intros i j Hi Hj. 
      assert (V0 : B2R (vfun v 0) = N * (B2R (vfun v 0) / N)) by (field; lra). assert (V1 : B2R (vfun v 1) = N * (B2R (vfun v 1) / N)) by (field; lra). assert (V2 : B2R (vfun v 2) = N * (B2R (vfun v 2) / N)) by (field; lra).
      assert (W0 : B2R (Bopp (vfun v 0)) = N * - (B2R (vfun v 0) / N)) by (rewrite B2R_Bopp; lra). assert (W1 : B2R (Bopp (vfun v 1)) = N * - (B2R (vfun v 1) / N)) by (rewrite B2R_Bopp; lra). assert (W2 : B2R (Bopp (vfun v 2)) = N * - (B2R (vfun v 2) / N)) by (rewrite B2R_Bopp; lra).
      assert (G0 : is_finite (Bopp (vfun v 0)) = true) by (rewrite is_finite_Bopp; exact F0). assert (G1 : is_finite (Bopp (vfun v 1)) = true) by (rewrite is_finite_Bopp; exact F1). assert (G2 : is_finite (Bopp (vfun v 2)) = true) by (rewrite is_finite_Bopp; exact F2).
      assert (Z1 : is_finite (zero : fl) = true) by reflexivity. assert (Z2 : B2R (zero : fl) = N * 0) by (cbn [B2R zero F_Num]; ring).
      assert (KE : forall i j, (i < 3)%nat -> (j < 3)%nat -> exists x : fl, mfun (m33_div (skew_from_vec v) n) i j = Bdiv mode_NE x n /\
        ((x = vfun v 0 /\ K i j = B2R (vfun v 0) / N) \/ (x = vfun v 1 /\ K i j = B2R (vfun v 1) / N) \/ (x = vfun v 2 /\ K i j = B2R (vfun v 2) / N) \/
         (x = Bopp (vfun v 0) /\ K i j = - (B2R (vfun v 0) / N)) \/ (x = Bopp (vfun v 1) /\ K i j = - (B2R (vfun v 1) / N)) \/ (x = Bopp (vfun v 2) /\ K i j = - (B2R (vfun v 2) / N)) \/ (x = zero /\ K i j = 0))).
      { unfold K, N. clear. intros i j Hi Hj. generalize n. intros n0. unfold dir3. generalize (len3 v). intros l. destruct v as (v0&v1&v2&[]).
        destruct i as [ |[ |[ |i]]]; [ | | |lia]; (destruct j as [ |[ |[ |j]]]; [ | | |lia]); (eexists; split; [reflexivity| ]);
        first [left; split; reflexivity|right; left; split; reflexivity|right; right; left; split; reflexivity|right; right; right; left; split; reflexivity
              |right; right; right; right; left; split; reflexivity|right; right; right; right; right; left; split; reflexivity|right; right; right; right; right; right; split; reflexivity]. }
      destruct (KE i j Hi Hj) as (x & Ex & H). exists x. split; [exact Ex| ].
      destruct H as [[Hx ->]|[[Hx ->]|[[Hx ->]|[[Hx ->]|[[Hx ->]|[[Hx ->]|[Hx ->]]]]]]]; subst x; split; assumption. }
    assert (NK : fnorm K * fnorm K = 2).
    { rewrite fnorm_fro. unfold K. revert DU. generalize (dir3 v). clear. intros a Ua. destruct a as (x&y&z&[]).
      assert (Ua' : x * x + y * y + z * z = 1) by exact Ua. replace 2 with (2 * (x * x + y * y + z * z)) by lra. unfold fro2, sq_sum. 
      lazy [sumn mfun skew_from_vec List.nth List.map alist ahd atl acons anil fst snd vfun ix0 ix1 ix2 neg zero add mul R_Num R_Signed Nat.div Nat.modulo Nat.divmod Nat.sub]. ring. }
    assert (BK : fnorm K <= 14143 / 10000) by (pose proof (fnorm_pos K); nra).
    assert (G2 : forall i j, (i < 3)%nat -> (j < 3)%nat -> is_finite (mfun (m33_div (skew_from_vec v) n) i j) = true /\ Rabs (mR (m33_div (skew_from_vec v) n) i j - K i j) <= 39 / 10 * uro * Rabs (K i j) + eta).
    { intros i j Hi Hj. destruct (G i j Hi Hj) as (x & Ex & Fx & Vx). unfold mR. rewrite Ex. pose proof (fnorm_entry K i j Hi Hj) as KB. set (k := K i j) in *.
      assert (R0 : exists g, B2R x / B2R n = k * (1 + g) /\ Rabs g <= 283 / 100 * uro).
      { exists (N / B2R n - 1). split; [rewrite Vx; field; lra| ].
        replace (N / B2R n - 1) with ((N - B2R n) / B2R n) by (field; lra). unfold Rdiv. rewrite Rabs_mult, (Rabs_pos_eq (/ B2R n)) by (left; apply Rinv_0_lt_compat, n0).
        apply (Rmult_le_reg_r (B2R n)); [exact n0| ]. rewrite Rmult_assoc, Rinv_l, Rmult_1_r by lra. rewrite Rabs_minus_sym. eapply Rle_trans; [exact NV| ].
        destruct Nn as [Nn _]. assert (283 / 100 * uro * ((1 - 28 / 10 * uro) * N) <= 283 / 100 * uro * B2R n) by (apply Rmult_le_compat_l; lra).
        assert (28 / 10 * uro * N <= 283 / 100 * uro * ((1 - 28 / 10 * uro) * N)); [ |lra].
        replace (283 / 100 * uro * ((1 - 28 / 10 * uro) * N)) with (uro * N * (283 / 100 * (1 - 28 / 10 * uro))) by ring. replace (28 / 10 * uro * N) with (uro * N * (28 / 10)) by ring.
        apply Rmult_le_compat_l; [apply Rmult_le_pos; lra|lra]. }
      destruct R0 as (g & Rg & Lg). assert (B1 : Rabs (1 + g) <= 101 / 100) by (eapply Rle_trans; [apply Rabs_triang|rewrite Rabs_R1; lra]).
      assert (B2 : Rabs (B2R x / B2R n) <= 2) by (rewrite Rg, Rabs_mult; pose proof (Rabs_pos k); assert (Rabs k * Rabs (1 + g) <= 14143 / 10000 * (101 / 100)) by (apply Rmult_le_compat; try apply Rabs_pos; lra); lra).
      assert (NZn : B2R n <> 0) by lra.
      destruct (div_error x n Fx NZn B2) as (Fd & ee & h & Lee & Lh & Ed). split; [exact Fd| ]. rewrite Ed, Rg.
      replace (k * (1 + g) * (1 + ee) + h - k) with (k * (g + ee * (1 + g)) + h) by ring. eapply Rle_trans; [apply Rabs_triang| ]. apply Rplus_le_compat; [ |exact Lh].
      rewrite Rabs_mult, Rmult_comm. apply Rmult_le_compat_r; [apply Rabs_pos| ]. eapply Rle_trans; [apply Rabs_triang| ]. rewrite Rabs_mult.
      assert (Rabs ee * Rabs (1 + g) <= uro * (101 / 100)) by (apply Rmult_le_compat; try apply Rabs_pos; assumption). lra. }
    assert (CS : close3 (553 / 100 * uro) (m33_div (skew_from_vec v) n) (skew_from_vec (dir3 v))).
    { split; [intros i j Hi Hj; apply (G2 i j Hi Hj)| ]. rewrite close_dst. unfold dst. fold K.
      eapply Rle_trans; [apply (fnorm_mono _ (fun i j => 39 / 10 * uro * Rabs (K i j) + eta)); intros i j Hi Hj; apply (G2 i j Hi Hj)| ].
      eapply Rle_trans; [apply (fnorm_plus (fun i j => 39 / 10 * uro * Rabs (K i j)) (fun _ _ => eta))| ].
      rewrite (fnorm_scal (39 / 10 * uro) (fun i j => Rabs (K i j))), Rabs_pos_eq by lra. rewrite fnorm_abs.
      assert (A3 : fnorm (fun _ _ => eta) <= 3 * eta) by (apply fnorm_all; [lra|intros; rewrite Rabs_pos_eq by lra; lra]).
      assert (39 / 10 * uro * fnorm K <= 39 / 10 * uro * (14143 / 10000)) by (apply Rmult_le_compat_l; lra). lra. }
    set (e1 := e + 28 / 10 * uro * N) in *.
    assert (Es1 : Rabs (B2R (fsin n) - sin N) <= e1).
    { pose proof (sin_lip (B2R n) N) as L1. replace (B2R (fsin n) - sin N) with ((B2R (fsin n) - sin (B2R n)) + (sin (B2R n) - sin N)) by ring. eapply Rle_trans; [apply Rabs_triang| ]. unfold e1. lra. }
    assert (Ec1 : Rabs (B2R (fcos n) - cos N) <= e1).
    { pose proof (cos_lip (B2R n) N) as L1. replace (B2R (fcos n) - cos N) with ((B2R (fcos n) - cos (B2R n)) + (cos (B2R n) - cos N)) by ring. eapply Rle_trans; [apply Rabs_triang| ]. unfold e1. lra. }
    assert (L55 : 553 / 100 * uro <= / 100) by lra.
    pose proof (rod_core (dir3 v) N e1 _ _ _ _ DU CS L55 Le Fs Fc Es1 Ec1) as C. eapply close_weaken; [exact C| ]. unfold e1.
    assert (0 <= uro * N) by (apply Rmult_le_pos; lra). lra.
Qed.

(** ** quaternion of a rotation vector *)
Lemma eta_sq : eta <= / 10000 * (uro * uro).
Proof.
  unfold FloatFacts.eta, FloatFacts.uro.
  replace (/ 10000 * (/ 2 * bpow radix2 (1 - prec) * (/ 2 * bpow radix2 (1 - prec)))) with (/ 40000 * (bpow radix2 (1 - prec) * bpow radix2 (1 - prec))) by field.
  rewrite <- bpow_plus. apply Rle_trans with (/ 2 * bpow radix2 (-20 + (1 - prec + (1 - prec)))).
  - apply Rmult_le_compat_l; [lra| ]. apply bpow_le. change (3 - emax - prec <= -20 + (1 - prec + (1 - prec)))%Z. lia.
  - rewrite bpow_plus. rewrite <- Rmult_assoc. apply Rmult_le_compat_r; [apply bpow_ge_0| ]. change (bpow radix2 (-20)) with (/ IZR (Z.pow_pos 2 20)). lra.
Qed.

Lemma inv_big (n : R) : 0 < n -> 1000000 * eta <= uro * (n * n) -> 4 * / n <= bpow radix2 emax.
Proof.
  intros n0 H.
  assert (E : eta = uro * bpow radix2 (2 - emax)).
  { unfold FloatFacts.eta, FloatFacts.uro. rewrite Rmult_assoc, <- bpow_plus. f_equal. f_equal. ring. }
  pose proof (uro_pos (prec := prec)) as P. rewrite E in H. pose proof (bpow_gt_0 radix2 (2 - emax)) as B0.
  assert (H1 : 1000000 * bpow radix2 (2 - emax) <= n * n).
  { apply (Rmult_le_reg_l uro); [exact P|lra]. }
  assert (B : bpow radix2 emax * bpow radix2 (2 - emax) = 4) by (rewrite <- bpow_plus; replace (emax + (2 - emax))%Z with 2%Z by ring; reflexivity).
  pose proof (emax_big Hp11 He4) as Eb. set (b := bpow radix2 emax) in *. set (c := bpow radix2 (2 - emax)) in *.
  destruct (Rle_lt_dec 1 n) as [G|G].
  - assert (/ n <= 1) by (rewrite <- Rinv_1; apply Rinv_le_contravar; lra). lra.
  - apply (Rmult_le_reg_r n); [exact n0| ]. rewrite Rmult_assoc, Rinv_l, Rmult_1_r by lra.
    apply (Rmult_le_reg_r n); [exact n0| ]. assert (b * (1000000 * c) <= b * (n * n)) by (apply Rmult_le_compat_l; lra). nra.
Qed.

Lemma div_big (x y : fl) : is_finite x = true -> B2R y <> 0 -> 2 * Rabs (B2R x / B2R y) + 2 < bpow radix2 emax ->
  is_finite (Bdiv mode_NE x y) = true
  /\ exists e h, Rabs e <= uro /\ Rabs h <= eta /\ B2R (Bdiv mode_NE x y) = B2R x / B2R y * (1 + e) + h.
Proof.
  intros F N L. pose proof (Bdiv_correct prec emax Hp He mode_NE x y N) as C. cbn [round_mode] in C. rewrite fe_eq in C.
  pose proof (uro_small Hp11) as U. pose proof (uro_pos (prec := prec)) as P.
  rewrite Rlt_bool_true in C.
  - destruct C as (C1 & C2 & _). rewrite F in C2. split; [exact C2| ]. rewrite C1.
    destruct (rnd_error (prec := prec) (emax := emax) (B2R x / B2R y)) as (e & h & Le & Lh & ->). exists e, h. auto.
  - eapply Rle_lt_trans; [apply (rnd_bound Hp11 He4)| ]. pose proof (Rabs_pos (B2R x / B2R y)). nra.
Qed.

Lemma c96_rotation_norm_encoded : forall e (v : V3 fl), norm_ok v -> nearly_zero (v3_norm2 v) = false -> trig_ok e (div (v3_norm2 v) lit_2) -> e + 14 / 10 * uro * len3 v <= / 300 ->
  exists A : Quaternion R, normalized (q_rotation_norm_encoded v) = true /\
  unit_quat A /\ q_to_rotation A = rodrigues (dir3 v) (len3 v) /\ close4 (142 / 100 * e + 2 * uro * len3 v + 5 * uro) (q_rotation_norm_encoded v) A.
Proof.
  intros e v Nv NZ T Le. destruct (norm_val v Nv) as [Np NV]. destruct (dir_unit v Np) as [DU DS].
  pose proof (uro_small Hp11) as U. pose proof (uro_pos (prec := prec)) as P. pose proof (eta_tiny Hp11 He4) as Ht. assert (T0 : 0 <= eta) by apply eta_pos.
  pose proof (trig_pos _ _ T) as E0. destruct Nv as [Fn Hn]. set (n := v3_norm2 v) in *. set (N := len3 v) in *.
  assert (F2 : is_finite (lit_2 : fl) = true /\ B2R (lit_2 : fl) = 2).
  { assert (4 <= 2 ^ prec)%Z by (change 4%Z with (2 ^ 2)%Z; apply Z.pow_le_mono_r; lia). pose proof (fofZ_int (prec := prec) (emax := emax) 2 ltac:(lia)) as [A B]. split; assumption. }
  destruct F2 as [F2 V2]. destruct (trig_half e n lit_2 Fn F2 V2 T) as [[Fs Es] [Fc Ec]]. clear T.
  set (s := fsin (div n lit_2)) in *. set (c := fcos (div n lit_2)) in *.
  exists (q_new (cos (N / 2)) (v3_scale (dir3 v) (sin (N / 2)))).
  assert (EQ : q_rotation_norm_encoded v = mkQ c (v3_scale v (div s n)) true) by (unfold q_rotation_norm_encoded; fold n; rewrite NZ; reflexivity).
  rewrite EQ. split; [reflexivity|split; [apply half_angle_quat_unit, DU|split; [apply half_angle_quat_rotation, DU| ]]].
  assert (Nn : (1 - 28 / 10 * uro) * N <= B2R n <= (1 + 28 / 10 * uro) * N) by (apply Rabs_le_inv in NV; split; lra).
  assert (n0 : 0 < B2R n) by (eapply Rlt_le_trans; [ |apply Nn]; apply Rmult_lt_0_compat; lra).
  assert (UN0 : 0 <= uro * N) by (apply Rmult_le_pos; lra).
  set (e1 := e + 14 / 10 * uro * N + eta). assert (Z1 : 0 <= e1) by (unfold e1; lra). assert (L1 : e1 <= / 250) by (unfold e1; lra).
  set (S := sin (N / 2)). set (C := cos (N / 2)).
  assert (HN : Rabs (B2R n / 2 - N / 2) <= 14 / 10 * uro * N).
  { replace (B2R n / 2 - N / 2) with (/ 2 * (B2R n - N)) by field. rewrite Rabs_mult, (Rabs_pos_eq (/ 2)) by lra. lra. }
  assert (Es1 : Rabs (B2R s - S) <= e1).
  { pose proof (sin_lip (B2R n / 2) (N / 2)) as L. replace (B2R s - S) with ((B2R s - sin (B2R n / 2)) + (sin (B2R n / 2) - S)) by ring. eapply Rle_trans; [apply Rabs_triang| ]. unfold e1, S. lra. }
  assert (Ec1 : Rabs (B2R c - C) <= e1).
  { pose proof (cos_lip (B2R n / 2) (N / 2)) as L. replace (B2R c - C) with ((B2R c - cos (B2R n / 2)) + (cos (B2R n / 2) - C)) by ring. eapply Rle_trans; [apply Rabs_triang| ]. unfold e1, C. lra. }
  assert (BS : Rabs S <= 1) by (apply Rabs_le; pose proof (SIN_bound (N / 2)); unfold S; lra).
  assert (Bs : Rabs (B2R s) <= 1005 / 1000) by (replace (B2R s) with ((B2R s - S) + S) by ring; eapply Rle_trans; [apply Rabs_triang|lra]).
  assert (NZn : B2R n <> 0) by lra.
  (* the quotient *)
  assert (DB : 2 * Rabs (B2R s / B2R n) + 2 < bpow radix2 emax).
  { pose proof (inv_big (B2R n) n0 Hn) as I. pose proof (emax_big Hp11 He4) as Eb. unfold Rdiv. rewrite Rabs_mult, (Rabs_pos_eq (/ B2R n)) by (left; apply Rinv_0_lt_compat, n0).
    pose proof (Rinv_0_lt_compat _ n0) as I0. assert (Rabs (B2R s) * / B2R n <= 1005 / 1000 * / B2R n) by (apply Rmult_le_compat_r; lra). lra. }
  destruct (div_big s n Fs NZn DB) as (Fp & d1 & h1 & Ld1 & Lh1 & Ep). change (Bdiv mode_NE s n) with (div s n) in Fp, Ep. set (p := div s n) in *.
  set (a := vfun (dir3 v)) in *.
  assert (Va : forall k, (k < 3)%nat -> a k * N = B2R (vfun v k)).
  { intros k Hk. assert (Q : a k = B2R (vfun v k) / N) by (destruct k as [ |[ |[ |k]]]; [reflexivity..|lia]). rewrite Q. field. lra. }
  assert (FV : forall k, (k < 3)%nat -> is_finite (vfun v k) = true).
  { intros k Hk. assert (Ex : n = Bsqrt mode_NE (dotl 3 (vfun v) (vfun v))).
    { change n with (d_vnorm2 D3 v). rewrite d_vnorm2_root, d_vdot_dotl. reflexivity. }
    rewrite Ex in Fn. apply finite_root in Fn. destruct (dotl_error 3 (vfun v) (vfun v) ltac:(lia) Fn) as [Fa _]. apply (Fa k Hk). }
  assert (Ba : forall k, (k < 3)%nat -> Rabs (a k) <= 1).
  { intros k Hk. eapply Rle_trans; [exact (comp_nrm 3 a k Hk)| ]. unfold nrm. rewrite DS, sqrt_1. lra. }
  (* eta times the length is negligible *)
  assert (EN : eta * N <= / 1000000 * uro).
  { pose proof eta_sq as Q. assert (X : uro * N <= / 400) by lra. assert (eta * N <= / 10000 * (uro * uro) * N) by (apply Rmult_le_compat_r; lra).
    assert (uro * (uro * N) <= uro * (/ 400)) by (apply Rmult_le_compat_l; lra). lra. }
  assert (GN : exists g, N / B2R n = 1 + g /\ Rabs g <= 283 / 100 * uro).
  { exists (N / B2R n - 1). split; [ring| ].
    replace (N / B2R n - 1) with ((N - B2R n) / B2R n) by (field; lra). unfold Rdiv. rewrite Rabs_mult, (Rabs_pos_eq (/ B2R n)) by (left; apply Rinv_0_lt_compat, n0).
    apply (Rmult_le_reg_r (B2R n)); [exact n0| ]. rewrite Rmult_assoc, Rinv_l, Rmult_1_r by lra. rewrite Rabs_minus_sym. eapply Rle_trans; [exact NV| ].
    destruct Nn as [Nn _]. assert (283 / 100 * uro * ((1 - 28 / 10 * uro) * N) <= 283 / 100 * uro * B2R n) by (apply Rmult_le_compat_l; lra).
    assert (28 / 10 * uro * N <= 283 / 100 * uro * ((1 - 28 / 10 * uro) * N)); [ |lra].
    replace (283 / 100 * uro * ((1 - 28 / 10 * uro) * N)) with (uro * N * (283 / 100 * (1 - 28 / 10 * uro))) by ring. replace (28 / 10 * uro * N) with (uro * N * (28 / 10)) by ring.
    apply Rmult_le_compat_l; [exact UN0|lra]. }
  destruct GN as (g & Eg & Lg).
  assert (G : forall k, (k < 3)%nat -> is_finite (mul (vfun v k) p) = true /\ Rabs (B2R (mul (vfun v k) p) - a k * S) <= Rabs (a k) * (e1 + 492 / 100 * uro) + 12 / 10 * eta).
  { intros k Hk. pose proof (Ba k Hk) as B. pose proof (Rabs_pos (a k)) as B0.
    assert (VP : B2R (vfun v k) * B2R p = a k * (B2R s * ((1 + g) * (1 + d1)) + h1 * N)).
    { rewrite Ep, <- (Va k Hk). replace (1 + g) with (N / B2R n) by lra. field. lra. }
    assert (RO : Rabs ((1 + g) * (1 + d1) - 1) <= 385 / 100 * uro).
    { replace ((1 + g) * (1 + d1) - 1) with (g + d1 * (1 + g)) by ring. eapply Rle_trans; [apply Rabs_triang| ]. rewrite Rabs_mult.
      assert (Rabs (1 + g) <= 101 / 100) by (eapply Rle_trans; [apply Rabs_triang|rewrite Rabs_R1; lra]).
      assert (Rabs d1 * Rabs (1 + g) <= uro * (101 / 100)) by (apply Rmult_le_compat; try apply Rabs_pos; assumption). lra. }
    set (ro := (1 + g) * (1 + d1) - 1) in *. assert (Ero : (1 + g) * (1 + d1) = 1 + ro) by (unfold ro; ring). rewrite Ero in VP. clearbody ro.
    assert (HN2 : Rabs (h1 * N) <= / 1000000 * uro).
    { rewrite Rabs_mult, (Rabs_pos_eq N) by lra. assert (Rabs h1 * N <= eta * N) by (apply Rmult_le_compat_r; lra). lra. }
    assert (W1 : Rabs (B2R s * (1 + ro) + h1 * N - S) <= e1 + 388 / 100 * uro).
    { replace (B2R s * (1 + ro) + h1 * N - S) with ((B2R s - S) + B2R s * ro + h1 * N) by ring. eapply Rle_trans; [apply Rabs_triang| ]. eapply Rle_trans; [apply Rplus_le_compat_r, Rabs_triang| ].
      rewrite (Rabs_mult (B2R s)). assert (Rabs (B2R s) * Rabs ro <= 1005 / 1000 * (385 / 100 * uro)) by (apply Rmult_le_compat; try apply Rabs_pos; assumption). lra. }
    assert (W2 : Rabs (B2R s * (1 + ro) + h1 * N) <= 101 / 100).
    { replace (B2R s * (1 + ro) + h1 * N) with ((B2R s * (1 + ro) + h1 * N - S) + S) by ring. eapply Rle_trans; [apply Rabs_triang|lra]. }
    assert (W3 : Rabs (B2R (vfun v k) * B2R p) <= Rabs (a k) * (101 / 100)) by (rewrite VP, Rabs_mult; apply Rmult_le_compat_l; assumption).
    destruct (mul_ok (vfun v k) p (FV k Hk) Fp ltac:(lra)) as [M1 M2]. split; [exact M1| ].
    replace (B2R (mul (vfun v k) p) - a k * S) with ((B2R (mul (vfun v k) p) - B2R (vfun v k) * B2R p) + (B2R (vfun v k) * B2R p - a k * S)) by ring.
    eapply Rle_trans; [apply Rabs_triang| ].
    assert (X1 : uro * Rabs (B2R (vfun v k) * B2R p) <= uro * (Rabs (a k) * (101 / 100))) by (apply Rmult_le_compat_l; lra).
    assert (X2 : Rabs (B2R (vfun v k) * B2R p - a k * S) <= Rabs (a k) * (e1 + 388 / 100 * uro)).
    { rewrite VP. replace (a k * (B2R s * (1 + ro) + h1 * N) - a k * S) with (a k * (B2R s * (1 + ro) + h1 * N - S)) by ring. rewrite Rabs_mult. apply Rmult_le_compat_l; assumption. }
    set (A := Rabs (a k)) in *. assert (X7 : 0 <= uro * A) by (apply Rmult_le_pos; lra).
    replace (A * (e1 + 492 / 100 * uro)) with (A * e1 + 492 / 100 * (uro * A)) by ring. replace (A * (e1 + 388 / 100 * uro)) with (A * e1 + 388 / 100 * (uro * A)) in X2 by ring. lra. }
  assert (QC : forall k, (k < 3)%nat -> qcomp (Datatypes.S k) (mkQ c (v3_scale v p) true) = mul (vfun v k) p) by (intros k Hk; clear - Hk; destruct v as (w0&w1&w2&[]); destruct k as [ |[ |[ |k]]]; reflexivity || lia).
  assert (QR : forall k, (k < 3)%nat -> rq (q_new C (v3_scale (dir3 v) S)) (Datatypes.S k) = a k * S) by (intros k Hk; destruct k as [ |[ |[ |k]]]; [reflexivity..|lia]).
  split.
  - intros k Hk. destruct k as [ |k]; [exact Fc| ]. rewrite (QC k ltac:(lia)). apply (G k ltac:(lia)).
  - rewrite close4_nrm.
    set (f1 := fun k => match k with 0%nat => e1 | Datatypes.S k => Rabs (a k) * e1 end). set (f2 := fun k => match k with 0%nat => 0 | Datatypes.S k => Rabs (a k) * (492 / 100 * uro) + 22 / 10 * eta end).
    eapply Rle_trans; [apply (nrm_mono 4 _ (fun k => f1 k + f2 k))| ].
    + intros k Hk. destruct k as [ |k].
      * unfold f1, f2. rewrite Rplus_0_r. exact Ec1.
      * unfold qR. rewrite (QC k ltac:(lia)), (QR k ltac:(lia)). unfold f1, f2. destruct (G k ltac:(lia)) as [_ G2]. eapply Rle_trans; [exact G2| ]. lra.
    + eapply Rle_trans; [apply nrm_plus| ].
      assert (Q : forall z, Rabs z * Rabs z = z * z) by (intros z; rewrite <- Rabs_mult; apply Rabs_pos_eq; nra).
      assert (DS' : a 0%nat * a 0%nat + a 1%nat * a 1%nat + a 2%nat * a 2%nat = 1) by (rewrite <- DS; unfold sq_sum; lazy [sumn add mul zero R_Num]; ring).
      assert (K1 : nrm 4 f1 <= 14143 / 10000 * e1).
      { apply nrm_le; [lra| ]. unfold sq_sum, f1. lazy [sumn add mul zero R_Num].
        replace (0 + e1 * e1 + Rabs (a 0%nat) * e1 * (Rabs (a 0%nat) * e1) + Rabs (a 1%nat) * e1 * (Rabs (a 1%nat) * e1) + Rabs (a 2%nat) * e1 * (Rabs (a 2%nat) * e1))
          with (e1 * e1 * (1 + (Rabs (a 0%nat) * Rabs (a 0%nat) + Rabs (a 1%nat) * Rabs (a 1%nat) + Rabs (a 2%nat) * Rabs (a 2%nat)))) by ring.
        rewrite !Q, DS'. nra. }
      assert (K2 : nrm 4 f2 <= 494 / 100 * uro).
      { eapply Rle_trans; [apply (nrm_mono 4 _ (fun k => match k with 0%nat => 0 | Datatypes.S k => 492 / 100 * uro * Rabs (a k) end + 22 / 10 * eta)); intros k Hk; unfold f2; destruct k as [ |k];
          [rewrite Rabs_R0; lra|rewrite Rabs_pos_eq; [lra|apply Rplus_le_le_0_compat; [apply Rmult_le_pos; [apply Rabs_pos|lra]|lra]]]| ].
        eapply Rle_trans; [apply (nrm_plus 4 (fun k => match k with 0%nat => 0 | Datatypes.S k => 492 / 100 * uro * Rabs (a k) end) (fun _ => 22 / 10 * eta))| ].
        assert (J1 : nrm 4 (fun k => match k with 0%nat => 0 | Datatypes.S k => 492 / 100 * uro * Rabs (a k) end) <= 492 / 100 * uro).
        { apply nrm_le; [lra| ]. unfold sq_sum. lazy [sumn add mul zero R_Num]. apply Req_le.
          replace (492 / 100 * uro * (492 / 100 * uro)) with (492 / 100 * uro * (492 / 100 * uro) * (a 0%nat * a 0%nat + a 1%nat * a 1%nat + a 2%nat * a 2%nat)) by (rewrite DS'; ring).
          rewrite <- (Q (a 0%nat)), <- (Q (a 1%nat)), <- (Q (a 2%nat)). ring. }
        assert (J2 : nrm 4 (fun _ => 22 / 10 * eta) <= 2 * (22 / 10 * eta)) by (apply nrm_le; [lra| ]; unfold sq_sum; lazy [sumn add mul zero R_Num]; lra).
        lra. }
      unfold e1 in K1. lra.
Qed.

(** the quaternion and the matrix of the same axis and angle agree *)
Lemma c96_rotation_agree : forall e (theta : fl) (v : V3 fl), is_finite theta = true -> norm_ok v -> trig_ok e theta -> trig_ok e (div theta (add one one)) -> e <= / 1000 ->
  exists (q : Quaternion fl) (w : V3 fl), q_rotation theta v = Ok q /\ v3_normalize v = Ok (Some w) /\
  forall i j, (i < 3)%nat -> (j < 3)%nat -> Rabs (B2R (mfun (q_to_rotation q) i j) - B2R (mfun (rotation_from_axis_angle w theta) i j)) <= 6 * e + 81 * uro.
Proof.
  intros e theta v Ft Nv T T' Le. pose proof (uro_small Hp11) as U. pose proof (uro_pos (prec := prec)) as P. pose proof (trig_pos _ _ T) as E0.
  destruct (c96_rotation e theta v Ft Nv T' ltac:(lra)) as (q & A & Eq & _ & UA & EA & CA).
  destruct (c96_axis_angle_direction e v theta Nv T ltac:(lra)) as (w & Ew & [_ C]). rewrite close_dst in C.
  exists q, w. split; [exact Eq|split; [exact Ew| ]]. intros i j Hi Hj.
  destruct (c96_quaternion_matrix _ _ _ UA CA ltac:(lra)) as [_ M]. destruct (M i j Hi Hj) as [_ M1]. rewrite EA in M1.
  pose proof (fnorm_entry (fun i j => mR (rotation_from_axis_angle w theta) i j - mfun (rodrigues (dir3 v) (B2R theta)) i j) i j Hi Hj) as D. cbv beta in D.
  fold (dst (mR (rotation_from_axis_angle w theta)) (mfun (rodrigues (dir3 v) (B2R theta)))) in D. unfold mR at 1 in D.
  apply Rabs_le_inv in M1. apply Rabs_le. assert (D' := Rle_trans _ _ _ D C). apply Rabs_le_inv in D'. lra.
Qed.
End F.

(** ** examples: correctly rounded sine and cosine meet the hypotheses *)
#[local] Instance prec53 : Prec_gt_0 53 := eq_refl.
#[local] Instance emax1024 : Prec_lt_emax 53 1024 := eq_refl.
#[local] Notation f64 := (binary_float 53 1024).

(** the float nearest to a real number *)
Definition near (r : R) : f64 :=
  let fe := FLT_exp (3 - 1024 - 53) 53 in let r' := round radix2 fe ZnearestE r in
  binary_normalize 53 1024 prec53 emax1024 mode_NE (Ztrunc (scaled_mantissa radix2 fe r')) (cexp radix2 fe r') false.

Lemma near_ok r : Rabs r <= 1 -> is_finite (near r) = true /\ Rabs (B2R (near r) - r) <= 11 / 10 * FloatFacts.uro (prec := 53).
Proof.
  intros L. unfold near. set (fe := FLT_exp (3 - 1024 - 53) 53). set (r' := round radix2 fe ZnearestE r).
  assert (G : generic_format radix2 fe r') by (apply generic_format_round; [apply FLT_exp_valid; exact prec53|apply valid_rnd_N]).
  assert (B : Rabs r' <= 1).
  { apply abs_round_le_generic; [apply FLT_exp_valid; exact prec53|apply valid_rnd_N| |exact L]. change 1 with (bpow radix2 0). apply generic_format_bpow. unfold fe, FLT_exp. lia. }
  pose proof (binary_normalize_correct 53 1024 prec53 emax1024 mode_NE (Ztrunc (scaled_mantissa radix2 fe r')) (cexp radix2 fe r') false) as C. cbn [round_mode] in C. cbv zeta in C.
  assert (E : F2R (Defs.Float radix2 (Ztrunc (scaled_mantissa radix2 fe r')) (cexp radix2 fe r')) = r') by (symmetry; exact G). rewrite E in C. rewrite fe_eq in C. fold fe in C.
  rewrite (round_generic radix2 fe ZnearestE r' G) in C. rewrite Rlt_bool_true in C.
  - destruct C as (C1 & C2 & _). split; [exact C2| ]. rewrite C1. unfold r'. change fe with (FLT_exp (3 - 1024 - 53) 53).
    destruct (rnd_error (prec := 53) (emax := 1024) r) as (e & h & Le & Lh & ->).
    replace (r * (1 + e) + h - r) with (e * r + h) by ring. eapply Rle_trans; [apply Rabs_triang| ]. rewrite Rabs_mult.
    assert (Rabs e * Rabs r <= FloatFacts.uro (prec := 53) * 1) by (apply Rmult_le_compat; try apply Rabs_pos; assumption).
    pose proof (eta_tiny (prec := 53) (emax := 1024) ltac:(lia) ltac:(lia)) as T. pose proof (uro_pos (prec := 53)). lra.
  - eapply Rle_lt_trans; [exact B| ]. change 1 with (bpow radix2 0). apply bpow_lt. reflexivity.
Qed.

(** an oracle with correctly rounded sine and cosine *)
Definition crO : FOracle f64 := {| o_sin := fun x => near (sin (B2R x)); o_cos := fun x => near (cos (B2R x)); o_tan := fun x => near (tan (B2R x));
  o_acos := fun x => near (acos (B2R x)); o_atan2 := fun y x => near (fatan2 (Float := @R_Float f64_consts) (B2R y) (B2R x)); o_exp := fun x => near (exp (B2R x)); o_ln := fun x => near (ln (B2R x));
  o_PI := near PI; o_FRAC_PI_2 := near (PI / 2); o_1em40 := near (/ 10 ^ 40); o_1em6 := near (/ 10 ^ 6); o_1em3 := near (/ 10 ^ 3) |}.

Lemma crO_trig (x : f64) : trig_ok (O := crO) (11 / 10 * FloatFacts.uro (prec := 53)) x.
Proof.
  split; apply near_ok, Rabs_le; [apply SIN_bound|apply COS_bound].
Qed.

Lemma v122_ok (O : FOracle f64) : norm_ok (O := O) ([| fofZ 1; fofZ 2; fofZ 2 |] : V3 f64) /\ len3 ([| fofZ 1; fofZ 2; fofZ 2 |] : V3 f64) = 3 /\
  nearly_zero (v3_norm2 ([| fofZ 1; fofZ 2; fofZ 2 |] : V3 f64)) = false.
Proof.
  set (v := [| _; _; _ |]). split; [ |split].
  - split; [vm_compute; reflexivity| ]. assert (X : B2SF (v3_norm2 v) = SpecFloat.S754_finite false 6755399441055744 (-51)) by (vm_compute; reflexivity).
    rewrite (B2R_of_SF _ _ _ _ X). unfold FloatFacts.eta, FloatFacts.uro.
    pose proof (bpow_le radix2 (3 - 1024 - 53) (-80) ltac:(lia)) as L. set (b := bpow radix2 (3 - 1024 - 53)) in *. clearbody b. cbn in L |- *. lra.
  - unfold len3. assert (V : forall z, (Z.abs z <= 2 ^ 53)%Z -> B2R (fofZ z : f64) = IZR z) by (intros z Hz; apply (fofZ_int (prec := 53) (emax := 1024) z Hz)).
    change (vfun v 0) with (fofZ 1 : f64). change (vfun v 1) with (fofZ 2 : f64). change (vfun v 2) with (fofZ 2 : f64). rewrite !V by (cbn; lia).
    replace (1 ^ 2 + 2 ^ 2 + 2 ^ 2) with (3 * 3) by ring. apply sqrt_square. lra.
  - vm_compute. reflexivity.
Qed.

#[local] Existing Instance crO.
Example C96_case_euler : forall s, s <> Some YZX -> let y := fofZ 1 : f64 in let p := fofZ 2 in let r := fofZ 3 in
  close3 (/ 10 ^ 13) (euler_to_rotation y p r s) (euler_product s (B2R y) (B2R p) (B2R r)) /\
  (exists A : Quaternion R, unit_quat A /\ q_to_rotation A = euler_product None (B2R y) (B2R p) (B2R r) /\ close4 (/ 10 ^ 13) (q_from_euler_angles y p r) A) /\
  (forall i j, (i < 3)%nat -> (j < 3)%nat -> Rabs (B2R (mfun (q_to_rotation (q_from_euler_angles y p r)) i j) - B2R (mfun (euler_to_rotation y p r None) i j)) <= / 10 ^ 13).
Proof.
  intros s Hs y p r. pose proof uro53 as U. pose proof (uro_pos (prec := 53)) as P. pose proof crO_trig as T.
  assert (F : forall z, (Z.abs z <= 2 ^ 53)%Z -> is_finite (fofZ z : f64) = true) by (intros z Hz; apply (fofZ_int (prec := 53) (emax := 1024) z Hz)).
  assert (Le : 11 / 10 * FloatFacts.uro (prec := 53) <= / 2000) by lra.
  assert (Fy : is_finite y = true) by (apply F; cbn; lia). assert (Fp : is_finite p = true) by (apply F; cbn; lia). assert (Fr : is_finite r = true) by (apply F; cbn; lia).
  split; [ |split].
  - eapply close_weaken; [apply (c96_euler_to_rotation (prec := 53) (emax := 1024) ltac:(lia) ltac:(lia) (11 / 10 * FloatFacts.uro (prec := 53)) y p r s); [apply T..|lra|exact Hs]|lra].
  - destruct (c96_from_euler_angles (prec := 53) (emax := 1024) ltac:(lia) ltac:(lia) _ y p r Fy Fp Fr (T _) (T _) (T _) ltac:(lra)) as (A & UA & EA & FA & CA).
    exists A. split; [exact UA|split; [exact EA|split; [exact FA|lra]]].
  - intros i j Hi Hj. eapply Rle_trans; [apply (c96_euler_agree (prec := 53) (emax := 1024) ltac:(lia) ltac:(lia) _ y p r Fy Fp Fr (T _) (T _) (T _) (T _) (T _) (T _) Le i j Hi Hj)|lra].
Qed.

(** four factors with correctly rounded entries, and the vector 1, 2, 2 *)
Example C96_case_product : exists r : M33 R, SO3 r /\ let m := fold_left m33_mul (roty (fofZ 2 : f64) :: rotz (fofZ 3) :: rotx (fofZ 4) :: nil) (rotx (fofZ 1)) in
  close3 (/ 10 ^ 13) m r /\ near_rot (3 * / 10 ^ 13) m.
Proof.
  pose proof uro53 as U. pose proof (uro_pos (prec := 53)) as P.
  set (E := 2 * (11 / 10 * FloatFacts.uro (prec := 53))).
  assert (EL : forall x : f64, close3 E (rotx x) (rodrigues ex (B2R x)) /\ close3 E (roty x) (rodrigues ey (B2R x)) /\ close3 E (rotz x) (rodrigues ez (B2R x)))
    by (intros x; apply (c96_elementary (prec := 53) (emax := 1024)), crO_trig).
  destruct (c96_product (prec := 53) (emax := 1024) ltac:(lia) ltac:(lia) E (roty (fofZ 2 : f64) :: rotz (fofZ 3) :: rotx (fofZ 4) :: nil)
    (rodrigues ey (B2R (fofZ 2 : f64)) :: rodrigues ez (B2R (fofZ 3 : f64)) :: rodrigues ex (B2R (fofZ 4 : f64)) :: nil) (rotx (fofZ 1)) (rodrigues ex (B2R (fofZ 1 : f64)))) as [S1 S2].
  - exact (proj1 (axis_SO3 _)).
  - exact (proj1 (EL _)).
  - constructor; [split; [exact (proj1 (proj2 (axis_SO3 _)))|exact (proj1 (proj2 (EL _)))]| ].
    constructor; [split; [exact (proj2 (proj2 (axis_SO3 _)))|exact (proj2 (proj2 (EL _)))]| ].
    constructor; [split; [exact (proj1 (axis_SO3 _))|exact (proj1 (EL _))]|constructor].
  - unfold E. cbn [length INR]. lra.
  - eexists. split; [exact S1| ]. cbv zeta. cbn [length INR] in S2.
    assert (C : close3 (/ 10 ^ 13) (fold_left m33_mul (roty (fofZ 2 : f64) :: rotz (fofZ 3) :: rotx (fofZ 4) :: nil) (rotx (fofZ 1)))
      (fold_left m33_mul (rodrigues ey (B2R (fofZ 2 : f64)) :: rodrigues ez (B2R (fofZ 3 : f64)) :: rodrigues ex (B2R (fofZ 4 : f64)) :: nil) (rodrigues ex (B2R (fofZ 1 : f64)))))
      by (eapply close_weaken; [exact S2|unfold E; lra]).
    split; [exact C| ]. destruct (c96_near_rot (prec := 53) (emax := 1024) _ _ _ S1 C) as [N1 N2]. split; [exact N1| ]. intros i j Hi Hj. eapply Rle_trans; [apply N2; assumption|lra].
Qed.

Example C96_case_vector : let v := [| fofZ 1; fofZ 2; fofZ 2 |] : V3 f64 in let theta := fofZ 1 : f64 in
  (exists q w, q_rotation theta v = Ok q /\ v3_normalize v = Ok (Some w) /\
    (exists A, unit_quat A /\ q_to_rotation A = rodrigues (dir3 v) (B2R theta) /\ close4 (/ 10 ^ 13) q A) /\
    close3 (/ 10 ^ 12) (rotation_from_axis_angle w theta) (rodrigues (dir3 v) (B2R theta)) /\
    forall i j, (i < 3)%nat -> (j < 3)%nat -> Rabs (B2R (mfun (q_to_rotation q) i j) - B2R (mfun (rotation_from_axis_angle w theta) i j)) <= / 10 ^ 12) /\
  (exists m r, matrix_exponential (skew_from_vec v) = Ok m /\ is_mexp 3 (mfun (skew_from_vec [| B2R (vfun v 0); B2R (vfun v 1); B2R (vfun v 2) |])) (mfun r) /\ close3 (/ 10 ^ 12) m r) /\
  (exists A, unit_quat A /\ q_to_rotation A = rodrigues (dir3 v) 3 /\ close4 (/ 10 ^ 13) (q_rotation_norm_encoded v) A).
Proof.
  intros v theta. pose proof uro53 as U. pose proof (uro_pos (prec := 53)) as P. pose proof crO_trig as T. destruct (v122_ok crO) as (Nv & Lv & Nz). fold v in Nv, Lv, Nz.
  assert (Ft : is_finite theta = true) by apply (fofZ_int (prec := 53) (emax := 1024) 1 ltac:(cbn; lia)).
  assert (Le : 11 / 10 * FloatFacts.uro (prec := 53) <= / 1000) by lra.
  split; [ |split].
  - destruct (c96_rotation_agree (prec := 53) (emax := 1024) ltac:(lia) ltac:(lia) _ theta v Ft Nv (T _) (T _) Le) as (q & w & Eq & Ew & H).
    exists q, w. split; [exact Eq|split; [exact Ew|split; [ |split]]].
    + destruct (c96_rotation (prec := 53) (emax := 1024) ltac:(lia) ltac:(lia) _ theta v Ft Nv (T _) ltac:(lra)) as (q' & A & Eq' & _ & UA & EA & FA & CA).
      rewrite Eq in Eq'. injection Eq' as <-. exists A. split; [exact UA|split; [exact EA|split; [exact FA|lra]]].
    + destruct (c96_axis_angle_direction (prec := 53) (emax := 1024) ltac:(lia) ltac:(lia) _ v theta Nv (T _) ltac:(lra)) as (w' & Ew' & C).
      rewrite Ew in Ew'. injection Ew' as <-. eapply close_weaken; [exact C|lra].
    + intros i j Hi Hj. eapply Rle_trans; [apply H; assumption|lra].
  - destruct (c96_exponential (prec := 53) (emax := 1024) ltac:(lia) ltac:(lia) _ v Nv Nz (T _) ltac:(rewrite Lv; lra)) as (m & r & Em & Hm & _ & C). rewrite Lv in C.
    exists m, r. split; [exact Em|split; [exact Hm|eapply close_weaken; [exact C|lra]]].
  - destruct (c96_rotation_norm_encoded (prec := 53) (emax := 1024) ltac:(lia) ltac:(lia) _ v Nv Nz (T _) ltac:(rewrite Lv; lra)) as (A & _ & UA & EA & FA & CA). rewrite Lv in EA, CA.
    exists A. split; [exact UA|split; [exact EA|split; [exact FA|lra]]].
Qed.
