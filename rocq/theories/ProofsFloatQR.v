(** * ProofsFloatQR: QR on floats (C89); normalization on floats in any dimension (C90) *)

From Coq Require Import List Arith ZArith Reals Bool Lra Lia.
From Flocq Require Import Core Relative Sterbenz IEEE754.BinarySingleNaN.
From Verif Require Import Base Scalar Vec Mat2 Mat3 Mat4 Mat5 Mat6 Slices MatLoops MatOps Quat Transf RingDet Spec LoopFacts Entries InstZ InstR RFacts LUFacts ProofsRing InstF FloatFacts ProofsFloat ProofsFloat2 ProofsQR ProofsFloatErr ProofsFloatInv ProofsFloatNorm ProofsFloatRot.
Local Open Scope R_scope.

Section F.
Context {prec emax : Z} {Hp : Prec_gt_0 prec} {He : Prec_lt_emax prec emax} {O : FOracle (binary_float prec emax)}.
Notation fl := (binary_float prec emax).
Notation emin := (3 - emax - prec)%Z.
Notation fe := (FLT_exp emin prec).
Notation rnd := (round radix2 fe ZnearestE).
Notation uro := (uro (prec := prec)).
Notation eta := (eta (prec := prec) (emax := emax)).

(** ** C89: Q R against the input *)
Lemma qr_basis_rows {T} {nT : Num T} {sT : Signed T} {oT : POrd T} {fT : Float T} n f g (cols q0 q : arr (arr T n) n) :
  qr_basis f g cols q0 = Ok q -> forall i, (i < n)%nat -> exists u : arr T n, aget q i = Ok (normalize u) /\ (i = 0%nat -> aget cols 0 = Ok u).
Proof.
  unfold qr_basis. intros E.
  refine (for_ok_inv (fun k q => forall i, (i < k)%nat -> exists u : arr T n, aget q i = Ok (normalize u) /\ (i = 0%nat -> aget cols 0 = Ok u)) _ 0%nat n q0 q E (Nat.le_0_l n) _ _); [intros i H; lia| ].
  intros k a b Hk I B i Hi. destruct (aget cols k) as [c| ] eqn:Ec; [ |discriminate]. cbn [bind] in B.
  destruct (for_in _ _ _) as [u| ] eqn:Eu; [ |discriminate]. cbn [bind] in B. cbv zeta in B.
  destruct (Nat.eq_dec i k) as [->|Ne].
  - exists u. split; [exact (aset_same _ _ _ _ _ B)| ]. intros ->. cbn [firstn for_in] in Eu. injection Eu as <-. exact Ec.
  - rewrite (aset_other _ _ _ _ _ _ B Ne). apply I. lia.
Qed.

Lemma qr_r d (A Q R : mat fl (dimn d)) : d_qr d A = Ok (Some (Q, R)) -> R = d_mul d (d_transpose d Q) A.
Proof.
  rewrite d_qr_eq. destruct (negb _); [ |discriminate]. destruct (qr_basis _ _ _ _) as [q| ]; [ |discriminate]. cbn [bind]. intros E. injection E as <- <-. reflexivity.
Qed.

Lemma dotl_finite n (f g : nat -> fl) : is_finite (dotl n f g) = true -> forall k, (k < n)%nat -> is_finite (f k) = true /\ is_finite (g k) = true.
Proof. intros F k Hk. apply (dotl_error n f g ltac:(lia) F), Hk. Qed.

(** R is the rounded product of the transpose of Q with the input *)
Lemma c89_qr_r_error : forall d (A Q R : mat fl (dimn d)), d_qr d A = Ok (Some (Q, R)) ->
  forall k j, (k < dimn d)%nat -> (j < dimn d)%nat -> is_finite (mfun R k j) = true ->
  (forall l, (l < dimn d)%nat -> is_finite (mfun Q l k) = true /\ is_finite (mfun A l j) = true) /\
  Rabs (B2R (mfun R k j) - sumn (dimn d) (fun l => B2R (mfun Q l k) * B2R (mfun A l j)))
  <= ((1 + uro) ^ dimn d - 1) * sumn (dimn d) (fun l => Rabs (B2R (mfun Q l k) * B2R (mfun A l j))) + INR (dimn d) * (1 + uro) ^ dimn d * eta.
Proof.
  intros d A Q R E k j Hk Hj F. rewrite (qr_r d A Q R E) in *. split.
  - intros l Hl. rewrite d_mul_dotl in F by assumption.
    assert (X : exists l', (l' < dimn d)%nat /\ ord d k l' = l).
    { destruct d; cbn [dimn] in *; try (exists l; split; [exact Hl|reflexivity]). unfold ord. destruct (Nat.eqb k 2); [ |exists l; auto].
      all_lt l Hl; [exists 3%nat|exists 0%nat|exists 1%nat|exists 2%nat]; split; (lia || reflexivity). }
    destruct X as (l' & Hl' & <-). destruct (dotl_finite _ _ _ F l' Hl') as [F1 F2].
    rewrite d_transpose_entry in F1; auto.
  - pose proof (c50_mul_error d (d_transpose d Q) A k j Hk Hj F) as X. unfold err in X.
    pose (n := dimn d). assert (E1 : sumn n (fun l => B2R (mfun (d_transpose d Q) k l) * B2R (mfun A l j)) = sumn n (fun l => B2R (mfun Q l k) * B2R (mfun A l j))).
    { apply sumnR_ext. intros l Hl. rewrite d_transpose_entry; auto. }
    assert (E2 : sumn n (fun l => Rabs (B2R (mfun (d_transpose d Q) k l) * B2R (mfun A l j))) = sumn n (fun l => Rabs (B2R (mfun Q l k) * B2R (mfun A l j)))).
    { apply sumnR_ext. intros l Hl. rewrite d_transpose_entry; auto. }
    unfold n in E1, E2. rewrite <- E1, <- E2. exact X.
Qed.

Lemma sumR_sub n (f g : nat -> R) : sumn n (fun l => f l - g l) = sumn n f - sumn n g.
Proof. exact (sumn_sub R_ring n f g). Qed.
Lemma sumR_scal n c (f : nat -> R) : sumn n (fun l => c * f l) = c * sumn n f.
Proof. exact (sumn_scal R_ring n c f). Qed.
Lemma sumR_scal_r n c (f : nat -> R) : sumn n (fun l => f l * c) = sumn n f * c.
Proof. exact (sumn_scal_r R_ring n c f). Qed.
Lemma sumR_swap n m (f : nat -> nat -> R) : sumn n (fun i => sumn m (fun j => f i j)) = sumn m (fun j => sumn n (fun i => f i j)).
Proof. exact (sumn_swap R_ring n m f). Qed.
Lemma sumR_delta n k (f : nat -> R) : (k < n)%nat -> sumn n (fun i => (if Nat.eqb k i then 1 else 0) * f i) = f k.
Proof. exact (sumn_delta_l R_ring n k f). Qed.

(** Q R is as close to the input as Q is to being orthogonal *)
Lemma c89_qr_residual : forall d (A Q R : mat fl (dimn d)), d_qr d A = Ok (Some (Q, R)) ->
  (forall i j, (i < dimn d)%nat -> (j < dimn d)%nat -> is_finite (mfun R i j) = true) ->
  let n := dimn d in let q := fun i k => B2R (mfun Q i k) in let a := fun i j => B2R (mfun A i j) in
  forall i j, (i < n)%nat -> (j < n)%nat ->
  Rabs (sumn n (fun k => q i k * B2R (mfun R k j)) - a i j)
  <= sumn n (fun l => Rabs (sumn n (fun k => q i k * q l k) - (if Nat.eqb i l then 1 else 0)) * Rabs (a l j))
     + sumn n (fun k => Rabs (q i k) * (((1 + uro) ^ n - 1) * sumn n (fun l => Rabs (q l k * a l j)) + INR n * (1 + uro) ^ n * eta)).
Proof.
  intros d A Q R E F n q a i j Hi Hj. set (e := fun k => B2R (mfun R k j) - sumn n (fun l => q l k * a l j)).
  assert (De : forall k, (k < n)%nat -> Rabs (e k) <= ((1 + uro) ^ n - 1) * sumn n (fun l => Rabs (q l k * a l j)) + INR n * (1 + uro) ^ n * eta).
  { intros k Hk. exact (proj2 (c89_qr_r_error d A Q R E k j Hk Hj (F k j Hk Hj))). }
  set (g := fun l => sumn n (fun k => q i k * q l k) - (if Nat.eqb i l then 1 else 0)).
  assert (Id : sumn n (fun k => q i k * B2R (mfun R k j)) - a i j = sumn n (fun l => g l * a l j) + sumn n (fun k => q i k * e k)).
  { assert (S1 : sumn n (fun l => g l * a l j) = sumn n (fun l => sumn n (fun k => q i k * (q l k * a l j))) - a i j).
    { rewrite <- (sumR_delta n i (fun l => a l j) Hi), <- sumR_sub. apply sumnR_ext. intros l Hl. unfold g.
      rewrite Rmult_minus_distr_r. f_equal. rewrite <- sumR_scal_r. apply sumnR_ext. intros k Hk. ring. }
    assert (S2 : sumn n (fun k => q i k * e k) = sumn n (fun k => q i k * B2R (mfun R k j)) - sumn n (fun k => sumn n (fun l => q i k * (q l k * a l j)))).
    { rewrite <- sumR_sub. apply sumnR_ext. intros k Hk. unfold e. rewrite Rmult_minus_distr_l, sumR_scal. reflexivity. }
    rewrite S1, S2. rewrite (sumR_swap n n (fun l k => q i k * (q l k * a l j))). ring. }
  rewrite Id. eapply Rle_trans; [apply Rabs_triang| ]. apply Rplus_le_compat.
  - pose proof (sumn_Rabs n (fun l => g l * a l j) (fun _ => 0) (fun l => Rabs (g l) * Rabs (a l j))) as X.
    rewrite (sumnR_0 n (fun _ => 0)) in X by reflexivity. rewrite Rminus_0_r in X. apply X. intros l Hl. rewrite Rminus_0_r, Rabs_mult. lra.
  - pose proof (sumn_Rabs n (fun k => q i k * e k) (fun _ => 0) (fun k => Rabs (q i k) * (((1 + uro) ^ n - 1) * sumn n (fun l => Rabs (q l k * a l j)) + INR n * (1 + uro) ^ n * eta))) as X.
    rewrite (sumnR_0 n (fun _ => 0)) in X by reflexivity. rewrite Rminus_0_r in X. apply X. intros k Hk. rewrite Rminus_0_r, Rabs_mult.
    apply Rmult_le_compat_l; [apply Rabs_pos|apply De, Hk].
Qed.

(** ** C90: normalization *)
Hypothesis Hp11 : (11 <= prec)%Z.
Hypothesis He4 : (4 * prec <= emax)%Z.

Lemma norm_core_n m K p S s n e : 0 <= m <= 106 -> 0 <= K <= 100 -> 1 <= p <= 1 + m * uro -> 0 <= S -> Rabs e <= uro -> n = sqrt s * (1 + e) -> 0 < n ->
  1000000 * eta <= uro * (n * n) -> Rabs (s - S) <= (p - 1) * S + K * p * eta ->
  0 < S /\ (1 - (m + 212 / 100) * uro) * S <= n * n <= (1 + (m + 212 / 100) * uro) * S.
Proof.
  intros Hm HK Hpp HS Le En Hn Hn2 E. pose proof (uro_small Hp11) as U. pose proof (uro_pos (prec := prec)) as P.
  pose proof (eta_pos (prec := prec) (emax := emax)) as E0.
  set (u := uro) in *. set (h := eta) in *. clearbody u h.
  assert (Sp : 0 < s). { destruct (Rle_lt_dec s 0) as [N|N]; [ |exact N]. rewrite (sqrt_neg_0 _ N) in En. lra. }
  pose proof (sqrt_sqrt s (Rlt_le _ _ Sp)) as Q. pose proof (sqrt_lt_R0 s Sp) as R. set (r := sqrt s) in *. clearbody r. subst s.
  assert (Ie : - u <= e <= u) by (unfold Rabs in Le; destruct (Rcase_abs e); lra).
  assert (Q1 : 1 - 2 * u <= (1 + e) * (1 + e) <= 1 + 2 * u + u ^ 2) by (clear - Ie U P; nra).
  assert (U2 : u ^ 2 <= u / 2048) by (clear - U P; nra).
  assert (Mu : m * u <= 106 / 2048) by (apply Rle_trans with (106 * u); [apply Rmult_le_compat_r; lra|lra]).
  assert (Mu0 : 0 <= m * u) by (apply Rmult_le_pos; lra).
  assert (R2 : 0 < r * r) by (apply Rmult_lt_0_compat; exact R).
  assert (Hr : 900000 * h <= u * (r * r)).
  { assert (X : n * n <= 101 / 100 * (r * r)).
    { subst n. replace (r * (1 + e) * (r * (1 + e))) with ((1 + e) * (1 + e) * (r * r)) by ring. apply Rmult_le_compat_r; lra. }
    assert (u * (n * n) <= u * (101 / 100 * (r * r))) by (apply Rmult_le_compat_l; lra). lra. }
  assert (Kp : 0 <= K * p * h <= 106 * h).
  { assert (0 <= K * p <= 106) by (split; [apply Rmult_le_pos; lra|apply Rle_trans with (100 * (1 + 106 / 2048)); [apply Rmult_le_compat; lra|lra]]).
    split; [apply Rmult_le_pos; lra|apply Rmult_le_compat_r; lra]. }
  assert (Ei : - ((p - 1) * S + K * p * h) <= r * r - S <= (p - 1) * S + K * p * h) by (apply Rabs_le_inv; exact E).
  set (kh := K * p * h) in *. clearbody kh.
  assert (HpS : (p - 1) * S <= m * u * S) by (apply Rmult_le_compat_r; lra).
  assert (mS : m * u * S <= 106 / 2048 * S) by (apply Rmult_le_compat_r; lra).
  assert (ur : u * (r * r) <= / 2048 * (r * r)) by (apply Rmult_le_compat_r; lra).
  assert (RS : r * r <= 11 / 10 * S) by lra.
  assert (S3 : 0 < S) by lra.
  split; [exact S3| ].
  assert (Hh : kh <= / 1000 * u * S). { assert (u * (r * r) <= u * (11 / 10 * S)) by (apply Rmult_le_compat_l; lra). lra. }
  assert (Rr : (1 - (m + / 1000) * u) * S <= r * r <= (1 + (m + / 1000) * u) * S) by lra.
  subst n. replace (r * (1 + e) * (r * (1 + e))) with ((r * r) * ((1 + e) * (1 + e))) by ring.
  assert (W : 0 <= (m + / 1000) * u <= 10601 / 204800) by (clear - Mu Mu0 U P; lra).
  clear - W Q1 Rr U P S3 U2 R2.
  replace ((m + 212 / 100) * u) with ((m + / 1000) * u + (212 / 100 - / 1000) * u) by ring.
  set (w := (m + / 1000) * u) in *. clearbody w. set (f := (1 + e) * (1 + e)) in *. clearbody f. set (q := r * r) in *. clearbody q.
  split.
  - apply Rle_trans with ((1 - w) * S * (1 - 2 * u)).
    + replace ((1 - w) * S * (1 - 2 * u)) with ((1 - w) * (1 - 2 * u) * S) by ring. apply Rmult_le_compat_r; [lra| ].
      assert (0 <= w * u) by (apply Rmult_le_pos; lra). lra.
    + apply Rmult_le_compat; try lra. apply Rmult_le_pos; lra.
  - apply Rle_trans with ((1 + w) * S * (1 + 2 * u + u ^ 2)).
    + apply Rmult_le_compat; lra.
    + replace ((1 + w) * S * (1 + 2 * u + u ^ 2)) with ((1 + w) * (1 + 2 * u + u ^ 2) * S) by ring.
      apply Rmult_le_compat_r; [lra| ].
      assert (w * (2 * u + u ^ 2) <= 10601 / 204800 * (2 * u + u ^ 2)) by (apply Rmult_le_compat_r; nra). lra.
Qed.

Lemma square_plus_zero (x : fl) : Bplus mode_NE (Bmult mode_NE x x) (B754_zero false) = Bmult mode_NE x x.
Proof.
  destruct (Bmult mode_NE x x) as [s|s| |s m e B] eqn:E; [ |reflexivity..].
  destruct s; [ |reflexivity]. exfalso. pose proof (Bmult_correct prec emax Hp He mode_NE x x) as C. rewrite E in C.
  destruct (Rlt_bool _ _).
  - destruct C as (_ & _ & C). specialize (C eq_refl). rewrite xorb_nilpotent in C. discriminate.
  - rewrite xorb_nilpotent in C. discriminate.
Qed.

Lemma dotl_ext n (f g f' g' : nat -> fl) : (forall k, (k < n)%nat -> f k = f' k /\ g k = g' k) -> dotl n f g = dotl n f' g'.
Proof.
  induction n as [ |n IH]; intros H; [reflexivity| ]. destruct (H n ltac:(lia)) as [H1 H2]. destruct n as [ |n]; [cbn [dotl]; now rewrite H1, H2| ].
  rewrite !(dotl_S (S n)) by lia. rewrite H1, H2, IH; [reflexivity| ]. intros k Hk. apply H. lia.
Qed.

Lemma fold_dotl (l : list fl) : l <> nil ->
  fold_left (fun n i => ((i * i) + n)%sc) l zero = dotl (length l) (fun k => nth k l zero) (fun k => nth k l zero).
Proof.
  induction l as [ |x l IH] using rev_ind; [congruence| ]. intros _. rewrite fold_left_app, app_length. cbn [fold_left length].
  destruct l as [ |y l]; [exact (square_plus_zero x)| ]. rewrite IH by discriminate. rewrite Nat.add_1_r. rewrite dotl_S by (cbn; lia).
  rewrite (dotl_ext (length (y :: l)) (fun k => nth k ((y :: l) ++ x :: nil) zero) (fun k => nth k ((y :: l) ++ x :: nil) zero) (fun k => nth k (y :: l) zero) (fun k => nth k (y :: l) zero))
    by (intros k Hk; rewrite app_nth1 by exact Hk; auto).
  rewrite app_nth2 by lia. rewrite Nat.sub_diag. apply Bplus_comm.
Qed.

Lemma norm2_dotl n (v : arr fl n) : (0 < n)%nat -> norm2 (alist v) = Bsqrt mode_NE (dotl n (vfun v) (vfun v)).
Proof.
  intros H. unfold norm2. rewrite fold_dotl.
  - rewrite alist_length. reflexivity.
  - intros E. pose proof (alist_length v) as L. rewrite E in L. cbn in L. lia.
Qed.

Lemma vfun_amap n (f : fl -> fl) (v : arr fl n) k : (k < n)%nat -> vfun (amap f v) k = f (vfun v k).
Proof.
  revert k. induction n as [ |n IH]; intros k H; [lia| ]. destruct k as [ |k]; [reflexivity| ]. exact (IH (snd v) k ltac:(lia)).
Qed.

Lemma root_gt0 (s : fl) : B2R (Bsqrt mode_NE s) <> 0 -> 0 < B2R (Bsqrt mode_NE s).
Proof.
  destruct (sqrt_round s) as (e & Le & ->). intros N. pose proof (uro_half (prec := prec)) as H.
  assert (G : 0 <= sqrt (B2R s) * (1 + e)) by (apply Rmult_le_pos; [apply sqrt_pos|apply Rabs_le_inv in Le; lra]). destruct G as [G|G]; [exact G|congruence].
Qed.

(** components divided by the root of the computed sum of squares *)
Lemma normalize_core n (v w : nat -> fl) x : (0 < n <= 100)%nat -> x = Bsqrt mode_NE (dotl n v v) -> is_finite x = true -> 1000000 * eta <= uro * (B2R x * B2R x) ->
  (forall k, (k < n)%nat -> w k = Bdiv mode_NE (v k) x) ->
  let N := sqrt (sq_sum n (fun k => B2R (v k))) in
  Rabs (sq_sum n (fun k => B2R (w k)) - 1) <= (9 / 8 * INR n + 9 / 2) * uro /\
  forall k, (k < n)%nat -> is_finite (w k) = true /\
    Rabs (B2R (w k) - B2R (v k) / N) <= (9 / 16 * INR n + 11 / 5) * uro * Rabs (B2R (v k) / N) + eta.
Proof.
  intros Hn Ex F H2 C N. assert (H1 : 0 < B2R x).
  { subst x. apply root_gt0. intros E. rewrite E in H2. assert (0 < eta) by (unfold FloatFacts.eta; pose proof (bpow_gt_0 radix2 emin); lra). lra. }
  subst x. pose proof (finite_root (dotl n v v) F) as Fd. destruct (dotl_error n v v ltac:(lia) Fd) as [Fa D]. cbv zeta in D.
  assert (I0 : 1 <= INR n <= 100) by (replace 1 with (INR 1) by reflexivity; replace 100 with (INR 100) by (cbn; lra); split; apply le_INR; lia).
  destruct (sqrt_round (dotl n v v)) as (e & Le & En).
  set (x := Bsqrt mode_NE (dotl n v v)) in *. set (S := sq_sum n (fun k => B2R (v k))) in *.
  assert (D' : Rabs (B2R (dotl n v v) - S) <= ((1 + uro) ^ n - 1) * S + INR n * (1 + uro) ^ n * eta).
  { unfold S, sq_sum. rewrite sumn_sum_f by lia.
    assert (Y : sum_f_R0 (fun k => Rabs (B2R (v k) * B2R (v k))) (n - 1) = sum_f_R0 (fun k => B2R (v k) * B2R (v k)) (n - 1)).
    { apply sum_eq. intros k _. apply Rabs_pos_eq. nra. }
    rewrite Y in D. exact D. }
  pose proof (uro_small Hp11) as U. pose proof (uro_pos (prec := prec)) as P. pose proof (eta_small He4) as Et.
  pose proof (eta_pos (prec := prec) (emax := emax)) as E0.
  pose proof (pow_lin Hp11 n (106 / 100 * INR n) ltac:(nra) ltac:(lra)) as Pn.
  pose proof (pow_mono 0 n ltac:(lia) : _ <= _ <= (1 + uro) ^ n) as [_ Pn']. rewrite pow_O in Pn'.
  destruct (norm_core_n (106 / 100 * INR n) (INR n) ((1 + uro) ^ n) S (B2R (dotl n v v)) (B2R x) e ltac:(lra) ltac:(lra) (conj Pn' Pn) (sq_sum_pos _ _) Le En H1 H2 D') as (Sp & NN).
  clear D D' En Le e Pn Pn'. set (y := B2R x) in *.
  assert (Np : 0 < y) by exact H1.
  set (o := (106 / 100 * INR n + 212 / 100) * uro) in *.
  assert (Ho : 0 <= o <= 528 / 10000).
  { unfold o. split; [apply Rmult_le_pos; lra| ]. apply Rle_trans with (10812 / 100 * / 2048); [apply Rmult_le_compat; lra|lra]. }
  assert (T0 : (1 - o) * (y * y) <= S <= (1 + 106 / 100 * o) * (y * y)).
  { split.
    - apply Rle_trans with ((1 - o) * ((1 + o) * S)); [apply Rmult_le_compat_l; lra| ].
      rewrite <- Rmult_assoc. rewrite <- (Rmult_1_l S) at 2. apply Rmult_le_compat_r; [lra| ]. clear - Ho. nra.
    - apply Rle_trans with ((1 + 106 / 100 * o) * ((1 - o) * S)); [ |apply Rmult_le_compat_l; lra].
      rewrite <- Rmult_assoc. rewrite <- (Rmult_1_l S) at 1. apply Rmult_le_compat_r; [lra| ]. clear - Ho. nra. }
  clear NN. set (t := fun k => B2R (v k) / y).
  assert (Ts : sq_sum n t = S * / (y * y)).
  { unfold t, S, sq_sum. rewrite <- sumR_scal_r. apply sumnR_ext. intros k Hk. field. lra. }
  assert (Y2 : 0 < y * y) by (apply Rmult_lt_0_compat; exact Np).
  assert (Tb : 1 - o <= sq_sum n t <= 1 + 106 / 100 * o).
  { rewrite Ts. assert (S * / (y * y) * (y * y) = S) by (field; lra).
    split; apply (Rmult_le_reg_r (y * y)); try assumption; lra. }
  assert (T2 : forall k, (k < n)%nat -> 0 <= t k * t k <= 11 / 10).
  { intros k Hk. split; [apply Rle_0_sqr| ]. pose proof (sq_sum_ge n t k Hk). lra. }
  assert (Eh : eta <= / 1000000 * uro).
  { clear - U P Et. set (u := uro) in *. clearbody u. assert (u ^ 5 = u * (u ^ 2 * u ^ 2)) by ring. assert (u ^ 2 <= / 2048) by nra. assert (0 <= u ^ 2) by nra.
    assert (u * (u ^ 2 * u ^ 2) <= u * / 4000000) by (apply Rmult_le_compat_l; nra). lra. }
  assert (K : forall k, (k < n)%nat -> is_finite (w k) = true /\
     exists e h, Rabs e <= uro /\ Rabs h <= eta /\ B2R (w k) = t k * (1 + e) + h).
  { intros k Hk. rewrite (C k Hk). apply (div_error (v k) x (proj1 (Fa k Hk))); fold y; [lra| ]. fold (t k).
    specialize (T2 k Hk). apply Rabs_le. clear - T2. split; nra. }
  split.
  - assert (X : Rabs (sq_sum n (fun k => B2R (w k)) - sq_sum n t) <= sumn n (fun k => 2001 / 1000 * uro * (t k * t k) + 4 * eta)).
    { apply sumn_Rabs. intros k Hk. destruct (K k Hk) as (_ & e & h & Le & Lh & ->). apply comp_core; try assumption; [lra|apply T2, Hk|split; lra]. }
    assert (X2 : sumn n (fun k => 2001 / 1000 * uro * (t k * t k) + 4 * eta) = 2001 / 1000 * uro * sq_sum n t + INR n * (4 * eta)).
    { unfold sq_sum. rewrite <- sumR_scal. clear. clearbody t. clear. induction n as [ |m IH]; [cbn [sumn INR]; cbn [zero R_Num]; ring| ]. rewrite S_INR. cbn [sumn]. rewrite IH. cbn [add R_Num]. ring. }
    rewrite X2 in X. clear X2 K T2 C. set (q := sq_sum n t) in *. clearbody q.
    assert (Z : 2001 / 1000 * uro * q <= 2001 / 1000 * uro * (106 / 100)) by (apply Rmult_le_compat_l; lra).
    assert (Z2 : INR n * (4 * eta) <= INR n * (4 * (/ 1000000 * uro))) by (apply Rmult_le_compat_l; lra).
    assert (X3 : Rabs (q - 1) <= 106 / 100 * o) by (apply Rabs_le; lra).
    replace (sq_sum n (fun k => B2R (w k)) - 1) with ((sq_sum n (fun k => B2R (w k)) - q) + (q - 1)) by ring.
    eapply Rle_trans; [apply Rabs_triang| ].
    apply Rle_trans with (2001 / 1000 * uro * (106 / 100) + INR n * (4 * (/ 1000000 * uro)) + 106 / 100 * o); [lra| ].
    unfold o. assert (0 <= INR n * uro) by (apply Rmult_le_pos; lra).
    replace (2001 / 1000 * uro * (106 / 100) + INR n * (4 * (/ 1000000 * uro)) + 106 / 100 * ((106 / 100 * INR n + 212 / 100) * uro))
      with ((4 / 1000000 + 11236 / 10000) * (INR n * uro) + (2001 / 1000 * (106 / 100) + 22472 / 10000) * uro) by field.
    replace ((9 / 8 * INR n + 9 / 2) * uro) with (9 / 8 * (INR n * uro) + 9 / 2 * uro) by ring. lra.
  - intros k Hk. destruct (K k Hk) as (Fk & e & h & Le & Lh & ->). split; [exact Fk| ].
    assert (Nr : 0 < N) by (apply sqrt_lt_R0, Sp). assert (NS : N * N = S) by (apply sqrt_sqrt; lra).
    set (r := N / y).
    assert (Ir : 1 - 53 / 100 * o <= r <= 1 + 53 / 100 * o).
    { assert (E : N = r * y) by (unfold r; field; lra). assert (R0 : 0 < r) by (unfold r; apply Rdiv_lt_0_compat; assumption).
      rewrite <- NS, E in T0.
      assert (I2 : 1 - o <= r * r <= 1 + 106 / 100 * o).
      { split; apply (Rmult_le_reg_r (y * y)); try assumption; lra. }
      clear - I2 R0 Ho. clearbody r o.
      split; [destruct (Rle_lt_dec (1 - 53 / 100 * o) r)|destruct (Rle_lt_dec r (1 + 53 / 100 * o))]; try assumption; exfalso; nra. }
    assert (Et' : t k = B2R (v k) / N * r) by (unfold t, r; field; lra). rewrite Et'. set (z := B2R (v k) / N). clearbody z r.
    replace (z * r * (1 + e) + h - z) with (z * (r * (1 + e) - 1) + h) by ring.
    eapply Rle_trans; [apply Rabs_triang| ]. apply Rplus_le_compat; [ |exact Lh]. rewrite Rabs_mult, Rmult_comm. apply Rmult_le_compat_r; [apply Rabs_pos| ].
    assert (Ie : - uro <= e <= uro) by (apply Rabs_le_inv; exact Le).
    assert (Q : - (53 / 100 * o + 103 / 100 * uro) <= r * (1 + e) - 1 <= 53 / 100 * o + 103 / 100 * uro).
    { assert (Re : - (103 / 100 * uro) <= r * e <= 103 / 100 * uro).
      { assert (0 <= r <= 103 / 100) by lra. apply Rabs_le_inv. rewrite Rabs_mult, (Rabs_pos_eq r) by lra. apply Rmult_le_compat; try lra. apply Rabs_pos. }
      lra. }
    apply Rabs_le. assert (Q2 : 53 / 100 * o + 103 / 100 * uro <= (9 / 16 * INR n + 11 / 5) * uro).
    { unfold o. assert (0 <= INR n * uro) by (apply Rmult_le_pos; lra). lra. }
    lra.
Qed.

(** slices_methods::normalize *)
Lemma c90_slice_normalize : forall n (v : arr fl n), (0 < n <= 100)%nat ->
  is_finite (norm2 (alist v)) = true -> 1000000 * eta <= uro * (B2R (norm2 (alist v)) * B2R (norm2 (alist v))) ->
  let w := normalize v in let N := sqrt (sq_sum n (fun k => B2R (vfun v k))) in
  Rabs (sq_sum n (fun k => B2R (vfun w k)) - 1) <= (9 / 8 * INR n + 9 / 2) * uro /\
  forall k, (k < n)%nat -> is_finite (vfun w k) = true /\
    Rabs (B2R (vfun w k) - B2R (vfun v k) / N) <= (9 / 16 * INR n + 11 / 5) * uro * Rabs (B2R (vfun v k) / N) + eta.
Proof.
  intros n v Hn F H w N. apply (normalize_core n (vfun v) (vfun w) (norm2 (alist v)) Hn (norm2_dotl n v ltac:(lia)) F H).
  intros k Hk. unfold w, normalize. rewrite vfun_amap by exact Hk. reflexivity.
Qed.

(** the method of the vector types *)
Lemma c90_vector_normalize : forall d (v : arr fl (dimn d)), let n := dimn d in
  is_finite (d_vnorm2 d v) = true -> 1000000 * eta <= uro * (B2R (d_vnorm2 d v) * B2R (d_vnorm2 d v)) ->
  exists w, d_vnormalize d v = Ok (Some w) /\ let N := sqrt (sq_sum n (fun k => B2R (vfun v k))) in
  Rabs (sq_sum n (fun k => B2R (vfun w k)) - 1) <= (9 / 8 * INR n + 9 / 2) * uro /\
  forall k, (k < n)%nat -> is_finite (vfun w k) = true /\
    Rabs (B2R (vfun w k) - B2R (vfun v k) / N) <= (9 / 16 * INR n + 11 / 5) * uro * Rabs (B2R (vfun v k) / N) + eta.
Proof.
  intros d v n F H. assert (P : 0 < eta) by (unfold FloatFacts.eta; pose proof (bpow_gt_0 radix2 emin); lra).
  destruct (d_vnormalize_fl d v) as (w & Ew & Hw).
  { destruct (Beqb (d_vnorm2 d v) (B754_zero false)) eqn:Z; [ |reflexivity]. exfalso.
    rewrite Beqb_correct in Z by (assumption || reflexivity). destruct (Req_bool_spec (B2R (d_vnorm2 d v)) (B2R (B754_zero false : fl))) as [E|E]; [ |discriminate].
    cbn [B2R] in E. rewrite E in H. lra. }
  exists w. split; [exact Ew| ]. apply (normalize_core n (vfun v) (vfun w) (d_vnorm2 d v)); try assumption.
  - unfold n. destruct d; cbn; lia.
  - rewrite d_vnorm2_root, d_vdot_dotl. reflexivity.
Qed.

(** the columns of Q: each is the vector left after the projections, normalized *)
Lemma c89_qr_columns : forall d (A Q R : mat fl (dimn d)), d_qr d A = Ok (Some (Q, R)) -> let n := dimn d in
  forall j, (j < n)%nat -> exists u : arr fl n, (j = 0%nat -> forall l, (l < n)%nat -> vfun u l = mfun A l 0) /\
  (forall l, (l < n)%nat -> mfun Q l j = Bdiv mode_NE (vfun u l) (norm2 (alist u))) /\
  (is_finite (norm2 (alist u)) = true -> 1000000 * eta <= uro * (B2R (norm2 (alist u)) * B2R (norm2 (alist u))) ->
   (forall l, (l < n)%nat -> is_finite (mfun Q l j) = true) /\
   Rabs (sq_sum n (fun l => B2R (mfun Q l j)) - 1) <= (9 / 8 * INR n + 9 / 2) * uro).
Proof.
  intros d A Q R E n j Hj. rewrite d_qr_eq in E. destruct (negb _); [ |discriminate]. destruct (qr_basis _ _ _ _) as [q| ] eqn:B; [ |discriminate].
  cbn [bind] in E. injection E as <- _. destruct (qr_basis_rows _ _ _ _ _ _ B j Hj) as (u & Eu & E0). exists u.
  assert (En : forall l, (l < n)%nat -> mfun (d_transpose d q) l j = vfun (normalize u) l).
  { intros l Hl. rewrite d_transpose_entry by assumption. pose proof (mfun_mget n q j l Hj Hl) as M. unfold mget in M. unfold n in M. rewrite Eu in M. cbn [bind] in M.
    rewrite (vfun_aget _ _ _ Hl) in M. exact (eq_sym (f_equal (fun o => match o with Ok x => x | Panic => zero end) M)). }
  split; [ |split].
  - intros -> l Hl. specialize (E0 eq_refl). pose proof (mfun_mget n (d_transpose d A) 0 l Hj Hl) as M. unfold mget in M. unfold n in M. rewrite E0 in M. cbn [bind] in M.
    rewrite (vfun_aget _ _ _ Hl) in M. refine (eq_trans (f_equal (fun o => match o with Ok x => x | Panic => zero end) M) _). apply d_transpose_entry; assumption.
  - intros l Hl. rewrite (En l Hl). unfold normalize. rewrite vfun_amap by exact Hl. reflexivity.
  - intros F H. destruct (c90_slice_normalize n u ltac:(unfold n; destruct d; cbn; lia) F H) as [N1 N2]. split.
    + intros l Hl. rewrite (En l Hl). apply N2, Hl.
    + assert (X : sq_sum n (fun l => B2R (mfun (d_transpose d q) l j)) = sq_sum n (fun l => B2R (vfun (normalize u) l))).
      { apply sumnR_ext. intros l Hl. rewrite (En l Hl). reflexivity. }
      rewrite X. exact N1.
Qed.
End F.

#[local] Instance prec53 : Prec_gt_0 53 := eq_refl.
#[local] Instance emax1024 : Prec_lt_emax 53 1024 := eq_refl.
#[local] Notation f64 := (binary_float 53 1024).

Lemma B2R_of_SF (x : f64) s m e : B2SF x = SpecFloat.S754_finite s m e -> B2R x = IZR (if s then Z.neg m else Z.pos m) * bpow radix2 e.
Proof. intros E. destruct x as [b|b| |b m' e' B]; try discriminate. cbn [B2SF] in E. injection E as -> -> ->. destruct s; reflexivity. Qed.
Lemma B2R_of_SF0 (x : f64) s : B2SF x = SpecFloat.S754_zero s -> B2R x = 0.
Proof. intros E. destruct x as [b|b| |b m' e' B]; try discriminate. reflexivity. Qed.

Definition ents {n} (A : mat f64 n) : list SpecFloat.spec_float :=
  concat (map (fun i => map (fun j => B2SF (mfun A i j)) (seq 0 n)) (seq 0 n)).
Definition qr_ents {n} (o : outcome (option (mat f64 n * mat f64 n))) :=
  match o with Ok (Some (q, r)) => Some (ents q, ents r) | _ => None end.

Definition lowq3 : M33 f64 := [| [| p2 40; p2 40; p2 40 |]; [| p2 10; fofZ 0; fofZ 0 |]; [| fofZ 0; p2 10; fofZ 0 |] |].

(** everything stays finite, but two columns of Q are far from orthogonal and Q R is far from the input *)
Lemma c89_qr_refuted : forall O : FOracle f64, exists A Q R : M33 f64, d_qr D3 A = Ok (Some (Q, R))
  /\ (forall i j, (i < 3)%nat -> (j < 3)%nat -> is_finite (mfun A i j) = true /\ is_finite (mfun Q i j) = true /\ is_finite (mfun R i j) = true)
  /\ 7 / 10 <= sumn 3 (fun l => B2R (mfun Q l 1) * B2R (mfun Q l 2))
  /\ B2R (mfun A 1 0) = 1024 /\ 2559 <= sumn 3 (fun k => B2R (mfun Q 1 k) * B2R (mfun R k 0)).
Proof.
  intros O. exists lowq3.
  assert (C : qr_ents (d_qr D3 lowq3) = Some
     (SpecFloat.S754_finite false 4503599627370496 (-52) :: SpecFloat.S754_zero false :: SpecFloat.S754_zero false
      :: SpecFloat.S754_finite false 4503599627370496 (-82) :: SpecFloat.S754_finite true 6369051672525772 (-53) :: SpecFloat.S754_finite true 4503599627370496 (-52)
      :: SpecFloat.S754_zero false :: SpecFloat.S754_finite false 6369051672525772 (-53) :: SpecFloat.S754_zero false :: nil,
      SpecFloat.S754_finite false 4503599627370496 (-12) :: SpecFloat.S754_finite false 4503599627370496 (-12) :: SpecFloat.S754_finite false 4503599627370496 (-12)
      :: SpecFloat.S754_finite true 6369051672525772 (-43) :: SpecFloat.S754_finite false 6369051672525772 (-43) :: SpecFloat.S754_zero false
      :: SpecFloat.S754_finite true 4503599627370496 (-42) :: SpecFloat.S754_zero false :: SpecFloat.S754_zero false :: nil))
    by (vm_compute; reflexivity).
  destruct (d_qr D3 lowq3) as [[[Q R]| ]| ]; [ |discriminate..]. exists Q, R. split; [reflexivity| ]. cbn [qr_ents] in C.
  assert (C' := f_equal (fun o => match o with Some x => x | None => (nil, nil) end) C). cbv beta iota in C'. clear C.
  assert (CQ := f_equal fst C'). assert (CR := f_equal snd C'). cbn [fst snd] in CQ, CR. clear C'.
  unfold ents in CQ, CR. cbn [seq map concat app dimn] in CQ, CR.
  injection CQ as q00 q01 q02 q10 q11 q12 q20 q21 q22. injection CR as r00 r01 r02 r10 r11 r12 r20 r21 r22.
  assert (SFf : forall x : f64, is_finite x = match B2SF x with SpecFloat.S754_zero _ | SpecFloat.S754_finite _ _ _ => true | _ => false end)
    by (intros [ | | | ]; reflexivity).
  split; [ |split; [ |split]].
  - intros i j Hi Hj. split; [all_lt i Hi; all_lt j Hj; vm_compute; reflexivity| ].
    split; all_lt i Hi; all_lt j Hj; rewrite SFf;
      first [rewrite q00|rewrite q01|rewrite q02|rewrite q10|rewrite q11|rewrite q12|rewrite q20|rewrite q21|rewrite q22
            |rewrite r00|rewrite r01|rewrite r02|rewrite r10|rewrite r11|rewrite r12|rewrite r20|rewrite r21|rewrite r22]; reflexivity.
  - cbn [sumn]. lazy [add zero R_Num].
    rewrite (B2R_of_SF0 _ _ q01), (B2R_of_SF _ _ _ _ q11), (B2R_of_SF _ _ _ _ q12), (B2R_of_SF0 _ _ q22). cbn [bpow]. unfold Z.pow_pos. cbn [Pos.iter]. lazy [Z.mul Pos.mul radix_val radix2]. cbn. lra.
  - assert (X : B2SF (mfun lowq3 1 0) = SpecFloat.S754_finite false 4503599627370496 (-42)) by (vm_compute; reflexivity).
    rewrite (B2R_of_SF _ _ _ _ X). cbn. lra.
  - cbn [sumn]. lazy [add zero R_Num].
    rewrite (B2R_of_SF _ _ _ _ q10), (B2R_of_SF _ _ _ _ q11), (B2R_of_SF _ _ _ _ q12), (B2R_of_SF _ _ _ _ r00), (B2R_of_SF _ _ _ _ r10), (B2R_of_SF _ _ _ _ r20). cbn. lra.
Qed.

(** a diagonal matrix with finite entries and a determinant above epsilon *)
Lemma c89_qr_nan_refuted : forall O : FOracle f64, exists A Q R : M22 f64, d_qr D2 A = Ok (Some (Q, R))
  /\ B2R (mfun A 0 0) = bpow radix2 500 /\ B2R (mfun A 1 1) = bpow radix2 (-540) /\ B2R (mfun A 0 1) = 0 /\ B2R (mfun A 1 0) = 0
  /\ mfun Q 0 1 = B754_nan /\ mfun Q 1 1 = B754_infinity false.
Proof.
  intros O. exists ([| [| p2 500; fofZ 0 |]; [| fofZ 0; p2 (-540) |] |] : M22 f64). set (A := [| _; _ |]).
  assert (C : qr_ents (d_qr D2 A) = Some
     (SpecFloat.S754_finite false 4503599627370496 (-52) :: SpecFloat.S754_nan :: SpecFloat.S754_zero false :: SpecFloat.S754_infinity false :: nil,
      SpecFloat.S754_finite false 4503599627370496 448 :: SpecFloat.S754_zero false :: SpecFloat.S754_nan :: SpecFloat.S754_nan :: nil))
    by (vm_compute; reflexivity).
  destruct (d_qr D2 A) as [[[Q R]| ]| ]; [ |discriminate..]. exists Q, R. split; [reflexivity| ]. cbn [qr_ents] in C.
  assert (CQ := f_equal (fun o => match o with Some x => fst x | None => nil end) C). cbv beta iota in CQ. clear C. cbn [fst] in CQ.
  unfold ents in CQ. cbn [seq map concat app dimn] in CQ. injection CQ as q00 q01 q10 q11.
  assert (B52 : IZR 4503599627370496 = bpow radix2 52) by (cbn; lra).
  assert (Z : forall i j, mfun A i j = fofZ 0 -> B2R (mfun A i j) = 0) by (intros i j ->; reflexivity).
  split; [ |split; [ |split; [apply Z; reflexivity|split; [apply Z; reflexivity|split]]]].
  - assert (X : B2SF (mfun A 0 0) = SpecFloat.S754_finite false 4503599627370496 448) by (vm_compute; reflexivity).
    rewrite (B2R_of_SF _ _ _ _ X), B52, <- bpow_plus. reflexivity.
  - assert (X : B2SF (mfun A 1 1) = SpecFloat.S754_finite false 4503599627370496 (-592)) by (vm_compute; reflexivity).
    rewrite (B2R_of_SF _ _ _ _ X), B52, <- bpow_plus. reflexivity.
  - exact (B2SF_inj 53 1024 _ (B754_nan : f64) q01).
  - exact (B2SF_inj 53 1024 _ (B754_infinity false : f64) q11).
Qed.

(** the matrix 4, 3 / 3, -4: every number of the factorization is exact up to rounding *)
Example C89_case : forall O : FOracle f64, let A := [| [| fofZ 4; fofZ 3 |]; [| fofZ 3; fofZ (-4) |] |] : M22 f64 in
  exists Q R : M22 f64, d_qr D2 A = Ok (Some (Q, R)) /\ (forall i j, (i < 2)%nat -> (j < 2)%nat -> is_finite (mfun R i j) = true).
Proof.
  intros O A. assert (C : match d_qr D2 A with Ok (Some (_, R)) => forallb (fun i => forallb (fun j => is_finite (mfun R i j)) (seq 0 2)) (seq 0 2) | _ => false end = true)
    by (vm_compute; reflexivity).
  destruct (d_qr D2 A) as [[[Q R]| ]| ]; [ |discriminate..]. exists Q, R. split; [reflexivity| ]. intros i j Hi Hj.
  rewrite forallb_forall in C. assert (C1 := C i ltac:(apply in_seq; lia)). rewrite forallb_forall in C1. apply C1, in_seq. lia.
Qed.

Example C90_case : forall O : FOracle f64, let v := [| fofZ 1; fofZ 2; fofZ 3; fofZ 4; fofZ 5; fofZ 6; fofZ 7; fofZ 8 |] : arr f64 8 in
  let w := normalize v in forall k, (k < 8)%nat -> is_finite (vfun w k) = true.
Proof.
  intros O v w k Hk. refine (proj1 (proj2 (c90_slice_normalize (prec := 53) (emax := 1024) _ _ 8 v _ _ _) k Hk)); try lia.
  - vm_compute; reflexivity.
  - assert (X : B2SF (norm2 (alist v)) = SpecFloat.S754_finite false 8040533602419662 (-49)) by (vm_compute; reflexivity).
    rewrite (B2R_of_SF _ _ _ _ X). unfold FloatFacts.eta, FloatFacts.uro.
    pose proof (bpow_le radix2 (3 - 1024 - 53) (-80) ltac:(lia)) as L. set (b := bpow radix2 (3 - 1024 - 53)) in *. clearbody b. cbn in L |- *. lra.
Qed.
