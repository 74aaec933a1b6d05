(** * ProofsFloatNorm: norms and normalization on floats (C81) *)

From Coq Require Import List Arith ZArith Reals Bool Lra Lia.
From Flocq Require Import Core Relative IEEE754.BinarySingleNaN.
From Verif Require Import Base Scalar Vec Mat2 Mat3 Mat4 Mat5 Mat6 Slices MatLoops MatOps Quat RingDet Spec Entries InstZ InstR RFacts ProofsRing ProofsQuat InstF FloatFacts ProofsFloat ProofsPanic ProofsFloat2 ProofsFloatErr.
Local Open Scope R_scope.

Lemma d_vnormalize_any {T} {nT : Num T} {sT : Signed T} {oT : POrd T} {fT : Float T} d (v : arr T (dimn d)) :
  eqb (d_vnorm2 d v) zero = false ->
  exists u, d_vnormalize d v = Ok (Some u) /\ forall i, (i < dimn d)%nat -> vfun u i = div (vfun v i) (d_vnorm2 d v).
Proof.
  intros H. destruct d; cbn [d_vnormalize d_vnorm2 dimn] in *;
  [unfold v2_normalize; set (x := v2_norm2 v) in *|unfold v3_normalize; set (x := v3_norm2 v) in *
  |unfold v4_normalize; set (x := v4_norm2 v) in *|unfold v5_normalize; set (x := v5_norm2 v) in *
  |unfold v6_normalize; set (x := v6_norm2 v) in *]; clearbody x; rewrite H; cbn [negb];
  (eexists; split; [reflexivity|intros i Hi; all_lt i Hi; reflexivity]).
Qed.

Section F.
Context {prec emax : Z} {Hp : Prec_gt_0 prec} {He : Prec_lt_emax prec emax} {O : FOracle (binary_float prec emax)}.
Notation fl := (binary_float prec emax).
Notation emin := (3 - emax - prec)%Z.
Notation fe := (FLT_exp emin prec).
Notation rnd := (round radix2 fe ZnearestE).
Notation uro := (uro (prec := prec)).
Notation eta := (eta (prec := prec) (emax := emax)).

Lemma uro_half : uro <= / 2.
Proof.
  unfold FloatFacts.uro. assert (bpow radix2 (1 - prec) <= bpow radix2 0) by (apply bpow_le; unfold Prec_gt_0 in Hp; lia).
  change (bpow radix2 0) with 1 in H. lra.
Qed.

Lemma sqrt_round (x : fl) : exists e, Rabs e <= uro /\ B2R (Bsqrt mode_NE x) = sqrt (B2R x) * (1 + e).
Proof.
  destruct (Bsqrt_correct prec emax Hp He mode_NE x) as (-> & _). pose proof (uro_pos (prec := prec)) as U.
  destruct (Rle_lt_dec (B2R x) 0) as [N|P].
  - exists 0. rewrite (sqrt_neg_0 _ N), Rabs_R0, round_0 by apply valid_rnd_round_mode. split; [lra|ring].
  - assert (L : bpow radix2 (emin + prec - 1) <= Rabs (sqrt (B2R x))).
    { rewrite Rabs_pos_eq by apply sqrt_pos. rewrite <- (sqrt_Rsqr (bpow radix2 (emin + prec - 1))) by apply bpow_ge_0.
      apply sqrt_le_1_alt. unfold Rsqr. rewrite <- bpow_plus. apply Rle_trans with (bpow radix2 emin).
      - apply bpow_le. unfold Prec_lt_emax in He. lia.
      - apply (generic_format_ge_bpow radix2 fe); [ |exact P|apply format_B2R]. intros e. unfold FLT_exp. apply Z.le_max_r. }
    destruct (relative_error_N_FLT_ex radix2 emin prec Hp (fun z => negb (Z.even z)) _ L) as (e & Le & E).
    exists e. unfold FloatFacts.uro. replace (1 - prec)%Z with (- prec + 1)%Z by ring. auto.
Qed.

(** the root of a number known up to a relative error *)
Lemma sqrt_rel s S d : 0 <= S -> 0 <= d -> Rabs (s - S) <= d * S -> Rabs (sqrt s - sqrt S) <= d * sqrt S.
Proof.
  intros P D E. destruct (Rle_lt_dec S 0) as [Z|Z].
  - assert (S = 0) by lra. subst. rewrite Rmult_0_r in E. assert (s = 0) by (unfold Rabs in E; destruct (Rcase_abs _); lra).
    subst. rewrite sqrt_0. rewrite Rminus_0_r, Rabs_R0. lra.
  - destruct (Rle_lt_dec s 0) as [N|N].
    + rewrite (sqrt_neg_0 s N). rewrite Rminus_0_l, Rabs_Ropp, Rabs_pos_eq by apply sqrt_pos.
      assert (1 <= d). { rewrite Rabs_left1 in E by lra. nra. }
      pose proof (sqrt_pos S). nra.
    + assert (A : 0 < sqrt s) by now apply sqrt_lt_R0. assert (B : 0 < sqrt S) by now apply sqrt_lt_R0.
      pose proof (sqrt_sqrt s (Rlt_le _ _ N)) as Q. pose proof (sqrt_sqrt S (Rlt_le _ _ Z)) as Q'.
      set (a := sqrt s) in *. set (b := sqrt S) in *. rewrite <- Q, <- Q' in E. clearbody a b.
      replace (a * a - b * b) with ((a - b) * (a + b)) in E by ring. rewrite Rabs_mult, (Rabs_pos_eq (a + b)) in E by lra.
      apply (Rmult_le_reg_r b); [exact B| ]. pose proof (Rabs_pos (a - b)). nra.
Qed.

Lemma root_error (s : fl) S n : 0 <= S -> Rabs (B2R s - S) <= ((1 + uro) ^ n - 1) * S ->
  Rabs (B2R (Bsqrt mode_NE s) - sqrt S) <= ((1 + uro) ^ Datatypes.S n - 1) * sqrt S.
Proof.
  intros P E. pose proof (pow_mono 0 n ltac:(lia) : _ <= _ <= (1 + uro) ^ n) as [_ L]. rewrite pow_O in L.
  apply sqrt_rel in E; [ |exact P|lra].
  destruct (sqrt_round s) as (e & Le & ->). cbn [pow]. set (G := (1 + uro) ^ n) in *. clearbody G.
  pose proof (sqrt_pos S) as B. pose proof (uro_pos (prec := prec)) as U. set (a := sqrt (B2R s)) in *. set (b := sqrt S) in *. clearbody a b.
  replace (a * (1 + e) - b) with ((a - b) * (1 + e) + b * e) by ring.
  eapply Rle_trans; [apply Rabs_triang| ]. rewrite !Rabs_mult, (Rabs_pos_eq b) by exact B.
  assert (Rabs (1 + e) <= 1 + uro) by (eapply Rle_trans; [apply Rabs_triang|rewrite Rabs_R1; lra]).
  assert (Rabs (a - b) * Rabs (1 + e) <= (G - 1) * b * (1 + uro)) by (apply Rmult_le_compat; try assumption; apply Rabs_pos).
  assert (b * Rabs e <= b * uro) by (apply Rmult_le_compat_l; assumption). lra.
Qed.

(** the exact sum of squares *)
Definition sq_sum (n : nat) (f : nat -> R) : R := sumn n (fun k => f k * f k).
Lemma sq_sum_pos n f : 0 <= sq_sum n f.
Proof. unfold sq_sum. induction n as [ |n IH]; cbn [sumn]; [apply Rle_refl| ]. apply Rplus_le_le_0_compat; [exact IH|nra]. Qed.
Lemma sq_sum_ge n f k : (k < n)%nat -> f k * f k <= sq_sum n f.
Proof.
  unfold sq_sum. induction n as [ |n IH]; intros H; [lia| ]. cbn [sumn]. change (f k * f k <= sumn n (fun k => f k * f k) + f n * f n).
  destruct (Nat.eq_dec k n) as [->|N].
  - pose proof (sq_sum_pos n f). unfold sq_sum in H0. lra.
  - specialize (IH ltac:(lia)). nra.
Qed.

Lemma finite_root (s : fl) : is_finite (Bsqrt mode_NE s) = true -> is_finite s = true.
Proof. destruct (Bsqrt_correct prec emax Hp He mode_NE s) as (_ & -> & _). destruct s as [ | | |[] ]; intros; try discriminate; reflexivity. Qed.

Lemma dot_self_error d (v : arr fl (dimn d)) q : (q <= 0)%Z -> (emin <= q * 2)%Z ->
  (forall k, (k < dimn d)%nat -> grid q (B2R (vfun v k))) -> is_finite (d_vdot d v v) = true ->
  Rabs (B2R (d_vdot d v v) - sq_sum (dimn d) (fun k => B2R (vfun v k)))
  <= ((1 + uro) ^ dimn d - 1) * sq_sum (dimn d) (fun k => B2R (vfun v k)).
Proof.
  intros Hq Hn G F. change 2%Z with (Z.of_nat 2) in Hn.
  assert (A : forall k, (k < dimn d)%nat -> rerr q 2 (vfun v k) (B2R (vfun v k)) (Rabs (B2R (vfun v k)), 0%nat, 1%nat)).
  { intros k Hk. apply rerr_leaf, G, Hk. }
  rewrite d_vdot_dotl in *.
  assert (X : forall n, (0 < n <= dimn d)%nat -> rerr q 2 (dotl n (vfun v) (vfun v)) (sq_sum n (fun k => B2R (vfun v k)))
     (sq_sum n (fun k => B2R (vfun v k)), n, 2%nat)).
  { induction n as [ |n IH]; intros H; [lia| ]. pose proof (rerr_mul q 2 Hq Hn _ _ _ _ _ _ (A n ltac:(lia)) (A n ltac:(lia))) as M.
    cbn [mul bdg_Num R_Num] in M. rewrite <- Rabs_mult, (Rabs_pos_eq (B2R (vfun v n) * B2R (vfun v n))) in M by nra.
    destruct n as [ |n].
    - cbn [dotl]. unfold sq_sum. cbn [sumn]. change (add zero (B2R (vfun v 0) * B2R (vfun v 0))) with (0 + B2R (vfun v 0) * B2R (vfun v 0)).
      rewrite Rplus_0_l. exact M.
    - rewrite dotl_S by lia. pose proof (rerr_add q 2 Hq Hn _ _ _ _ _ _ (IH ltac:(lia)) M) as Y.
      cbn [add bdg_Num R_Num] in Y. rewrite Nat.max_l in Y by lia. exact Y. }
  exact (proj1 (proj2 (X (dimn d) ltac:(destruct d; cbn; lia) (le_n _) F))).
Qed.

Lemma d_vnorm2_root d (v : arr fl (dimn d)) : d_vnorm2 d v = Bsqrt mode_NE (d_vdot d v v).
Proof. destruct d; reflexivity. Qed.

Lemma c81_norm2_error_partial : forall d (v : arr fl (dimn d)) q, (q <= 0)%Z -> (emin <= q * 2)%Z ->
  (forall k, (k < dimn d)%nat -> grid q (B2R (vfun v k))) -> is_finite (d_vnorm2 d v) = true ->
  let N := sqrt (sq_sum (dimn d) (fun k => B2R (vfun v k))) in
  Rabs (B2R (d_vnorm2 d v) - N) <= ((1 + uro) ^ S (dimn d) - 1) * N.
Proof.
  intros d v q Hq Hn G F N. rewrite d_vnorm2_root in *. apply root_error; [apply sq_sum_pos| ].
  apply (dot_self_error d v q); try assumption. apply finite_root, F.
Qed.

(** the components of [normalize] *)
Lemma d_vnormalize_fl d (v : arr fl (dimn d)) : Beqb (d_vnorm2 d v) (B754_zero false) = false ->
  exists u, d_vnormalize d v = Ok (Some u) /\ forall i, (i < dimn d)%nat -> vfun u i = Bdiv mode_NE (vfun v i) (d_vnorm2 d v).
Proof. exact (d_vnormalize_any d v). Qed.

Lemma div_error (x y : fl) : is_finite x = true -> B2R y <> 0 -> Rabs (B2R x / B2R y) <= 2 ->
  is_finite (Bdiv mode_NE x y) = true
  /\ exists e h, Rabs e <= uro /\ Rabs h <= eta /\ B2R (Bdiv mode_NE x y) = B2R x / B2R y * (1 + e) + h.
Proof.
  intros F N L. pose proof (Bdiv_correct prec emax Hp He mode_NE x y N) as C.
  assert (E2 : (2 <= emax)%Z) by (unfold Prec_gt_0, Prec_lt_emax in *; lia).
  rewrite Rlt_bool_true in C.
  - destruct C as (C1 & C2 & _). rewrite F in C2. split; [exact C2| ].
    destruct (error_N_FLT radix2 emin prec Hp (fun z => negb (Z.even z)) (B2R x / B2R y)) as (e & h & Le & Lh & _ & E).
    exists e, h. unfold FloatFacts.uro, FloatFacts.eta. replace (1 - prec)%Z with (- prec + 1)%Z by ring. rewrite C1. auto.
  - apply Rle_lt_trans with (bpow radix2 1).
    + apply abs_round_le_generic; [apply FLT_exp_valid; exact Hp|apply valid_rnd_N| |exact L].
      apply generic_format_bpow. change (FLT_exp emin prec (1 + 1) <= 1)%Z. unfold FLT_exp, Prec_gt_0, Prec_lt_emax in *. lia.
    + apply bpow_lt. lia.
Qed.

Lemma c81_normalize_error_partial : forall d (v : arr fl (dimn d)) q, (q <= 0)%Z -> (emin <= q * 2)%Z ->
  (forall k, (k < dimn d)%nat -> grid q (B2R (vfun v k))) -> is_finite (d_vnorm2 d v) = true ->
  let N := sqrt (sq_sum (dimn d) (fun k => B2R (vfun v k))) in
  let g := (1 + uro) ^ S (dimn d) - 1 in
  g <= / 2 -> 0 < N ->
  exists u, d_vnormalize d v = Ok (Some u) /\ forall i, (i < dimn d)%nat -> is_finite (vfun u i) = true
    /\ Rabs (B2R (vfun u i) - B2R (vfun v i) / N) <= ((1 + uro) / (1 - g) - 1) * Rabs (B2R (vfun v i) / N) + eta.
Proof.
  intros d v q Hq Hn G F N g Hg HN. pose proof (c81_norm2_error_partial d v q Hq Hn G F) as E. cbv zeta in E. fold N in E. fold g in E.
  set (x := d_vnorm2 d v) in *. 
  assert (X : (1 - g) * N <= B2R x <= (1 + g) * N).
  { unfold Rabs in E. destruct (Rcase_abs _) in E; lra. }
  assert (G0 : 0 <= g). { pose proof (Rabs_pos (B2R x - N)). nra. }
  assert (X0 : 0 < B2R x) by nra.
  assert (Z : Beqb x (B754_zero false) = false).
  { rewrite Beqb_correct; [ |exact F|reflexivity]. apply Req_bool_false. cbn. lra. }
  destruct (d_vnormalize_fl d v Z) as (u & Eu & Hu). exists u. split; [exact Eu| ]. intros i Hi. rewrite (Hu i Hi). fold x.
  assert (Fv : is_finite (vfun v i) = true).
  { unfold x in F. rewrite d_vnorm2_root in F. apply finite_root in F. apply (proj1 (c50_dot_error d v v F) i Hi). }
  assert (Vi : Rabs (B2R (vfun v i)) <= N).
  { rewrite <- (Rabs_pos_eq N) by lra. apply Rsqr_le_abs_0. unfold N. rewrite Rsqr_sqrt by apply sq_sum_pos.
    apply (sq_sum_ge _ (fun k => B2R (vfun v k)) i Hi). }
  assert (Q : Rabs (B2R (vfun v i) / B2R x) <= / (1 - g) * Rabs (B2R (vfun v i) / N)).
  { unfold Rdiv. rewrite !Rabs_mult, !Rabs_inv, (Rabs_pos_eq (B2R x)), (Rabs_pos_eq N) by lra.
    rewrite (Rmult_comm (/ (1 - g))), Rmult_assoc. apply Rmult_le_compat_l; [apply Rabs_pos| ].
    rewrite Rmult_comm, <- Rinv_mult. apply Rinv_le_contravar; [nra|lra]. }
  set (t := B2R (vfun v i) / N) in *.
  assert (T : Rabs t <= 1).
  { unfold t, Rdiv. rewrite Rabs_mult, Rabs_inv, (Rabs_pos_eq N) by lra. apply (Rmult_le_reg_r N); [exact HN| ].
    rewrite Rmult_assoc, Rinv_l by lra. lra. }
  assert (I2 : 1 <= / (1 - g) <= 2).
  { split; [rewrite <- Rinv_1 at 1; apply Rinv_le_contravar; lra|rewrite <- (Rinv_inv 2); apply Rinv_le_contravar; lra]. }
  destruct (div_error (vfun v i) x Fv ltac:(lra)) as (Fd & e & h & Le & Lh & Ed).
  { eapply Rle_trans; [exact Q| ]. pose proof (Rabs_pos t). nra. }
  split; [exact Fd| ]. rewrite Ed.
  assert (D : Rabs (B2R (vfun v i) / B2R x - t) <= (/ (1 - g) - 1) * Rabs t).
  { assert (W : B2R (vfun v i) / B2R x = t * (N / B2R x)) by (unfold t; field; lra). rewrite W.
    replace (t * (N / B2R x) - t) with (t * (N / B2R x - 1)) by ring. rewrite Rabs_mult, Rmult_comm.
    apply Rmult_le_compat_r; [apply Rabs_pos| ].
    assert (W1 : N / B2R x <= / (1 - g)).
    { apply (Rmult_le_reg_r (B2R x)); [exact X0| ]. unfold Rdiv. rewrite Rmult_assoc, Rinv_l, Rmult_1_r by lra.
      apply (Rmult_le_reg_l (1 - g)); [lra| ]. rewrite <- Rmult_assoc, Rinv_r by lra. lra. }
    assert (W2 : 1 - g <= N / B2R x).
    { apply (Rmult_le_reg_r (B2R x)); [exact X0| ]. unfold Rdiv. rewrite Rmult_assoc, Rinv_l, Rmult_1_r by lra. nra. }
    assert (W3 : 1 + g <= / (1 - g)).
    { apply (Rmult_le_reg_l (1 - g)); [lra| ]. rewrite Rinv_r by lra. nra. }
    apply Rabs_le. lra. }
  replace (_ * (1 + e) + h - t) with ((B2R (vfun v i) / B2R x - t) + B2R (vfun v i) / B2R x * e + h) by ring.
  eapply Rle_trans; [apply Rabs_triang| ]. apply Rplus_le_compat; [ |exact Lh].
  eapply Rle_trans; [apply Rabs_triang| ]. rewrite Rabs_mult.
  pose proof (uro_pos (prec := prec)) as U.
  assert (Rabs (B2R (vfun v i) / B2R x) * Rabs e <= / (1 - g) * Rabs t * uro) by (apply Rmult_le_compat; try assumption; apply Rabs_pos).
  unfold Rdiv. lra.
Qed.

(** [norm2] of a quaternion *)
Lemma c81_q_norm2_error_partial : forall (a : Quaternion fl) q, (q <= 0)%Z -> (emin <= q * 2)%Z ->
  (forall k, (k < 4)%nat -> grid q (B2R (qcomp k a))) -> is_finite (q_norm2 a) = true ->
  let N := sqrt (sq_sum 4 (fun k => B2R (qcomp k a))) in
  Rabs (B2R (q_norm2 a) - N) <= ((1 + uro) ^ 5 - 1) * N.
Proof.
  intros a q Hq Hn G F N. change 2%Z with (Z.of_nat 2) in Hn.
  pose proof (finite_root (q_dot a a) F) as F1. apply (root_error (q_dot a a) (sq_sum 4 (fun k => B2R (qcomp k a))) 4); [apply sq_sum_pos| ].
  assert (P : forall k, (k < 4)%nat -> rerr q 2 (mul (qcomp k a) (qcomp k a)) (B2R (qcomp k a) * B2R (qcomp k a))
     (B2R (qcomp k a) * B2R (qcomp k a), 1%nat, 2%nat)).
  { intros k Hk. pose proof (rerr_leaf q 2 _ (G k Hk)) as L. pose proof (rerr_mul q 2 Hq Hn _ _ _ _ _ _ L L) as M.
    cbn [mul bdg_Num R_Num] in M. rewrite <- Rabs_mult, (Rabs_pos_eq (B2R (qcomp k a) * B2R (qcomp k a))) in M by nra. exact M. }
  pose proof (rerr_add q 2 Hq Hn) as A.
  pose proof (A _ _ _ _ _ _ (P 0%nat ltac:(lia)) (A _ _ _ _ _ _ (A _ _ _ _ _ _ (P 1%nat ltac:(lia)) (P 2%nat ltac:(lia))) (P 3%nat ltac:(lia)))) as R.
  eapply rerr_done; [exact R|reflexivity|lazy; lia|lazy; lia| | |exact F1]; [ |apply Req_le]; unfold sq_sum; cbn [sumn];
    lazy [add zero mul R_Num]; ring.
Qed.
End F.

(** ** Concrete cases and refutations (f64) *)
#[local] Instance prec53 : Prec_gt_0 53 := eq_refl.
#[local] Instance emax1024 : Prec_lt_emax 53 1024 := eq_refl.
#[local] Notation f64 := (binary_float 53 1024).

Definition p2 (e : Z) : f64 := Bldexp mode_NE Bone e.

(** the squares overflow: the result of normalizing a finite vector is the zero vector *)
Lemma c81_normalize_overflow_refuted : forall O : FOracle f64, exists v u : V2 f64,
  (forall k, (k < 2)%nat -> is_finite (vfun v k) = true) /\ Beqb (vfun v 0) (B754_zero false) = false /\
  d_vnormalize D2 v = Ok (Some u) /\ (forall k, (k < 2)%nat -> vfun u k = B754_zero false).
Proof.
  intros O. exists [| p2 600; p2 600 |], [| B754_zero false; B754_zero false |].
  split; [intros k Hk; all_lt k Hk; vm_compute; reflexivity| ]. split; [vm_compute; reflexivity| ].
  split; [ |intros k Hk; all_lt k Hk; reflexivity].
  destruct (d_vnormalize_any D2 ([| p2 600; p2 600 |] : V2 f64)) as (u & E & H); [vm_compute; reflexivity| ].
  rewrite E. f_equal. f_equal. apply vfun_ext. intros i Hi. rewrite (H i Hi).
  apply B2SF_inj. cbn [dimn] in Hi. all_lt i Hi; vm_compute; reflexivity.
Qed.

(** the squares underflow: a vector that is not zero is reported as having norm zero *)
Lemma c81_normalize_underflow_refuted : forall O : FOracle f64, exists v : V2 f64,
  (forall k, (k < 2)%nat -> is_finite (vfun v k) = true) /\ Beqb (vfun v 0) (B754_zero false) = false /\
  d_vnorm2 D2 v = B754_zero false /\ d_vnormalize D2 v = Ok None.
Proof.
  intros O. exists [| p2 (-600); p2 (-600) |].
  split; [intros k Hk; all_lt k Hk; vm_compute; reflexivity| ]. split; [vm_compute; reflexivity| ].
  assert (E : d_vnorm2 D2 ([| p2 (-600); p2 (-600) |] : V2 f64) = B754_zero false) by (apply B2SF_inj; vm_compute; reflexivity).
  split; [exact E| ]. change (d_vnormalize D2) with (v2_normalize (T := f64)). unfold v2_normalize.
  change (v2_norm2 ?v) with (d_vnorm2 D2 v). rewrite E. reflexivity.
Qed.

(** (3, 4): the hypotheses hold, with room to spare *)
Example C81_case : forall O : FOracle f64, exists u, d_vnormalize D2 ([| fofZ 3; fofZ 4 |] : V2 f64) = Ok (Some u)
  /\ Rabs (B2R (vfun u 1) - 4 / 5) <= / 1000000000.
Proof.
  intros O. set (v := [| fofZ 3; fofZ 4 |] : V2 f64).
  assert (V0 : B2R (vfun v 0) = 3) by (apply int_val; vm_compute; discriminate).
  assert (V1 : B2R (vfun v 1) = 4) by (apply int_val; vm_compute; discriminate).
  assert (N : sqrt (sq_sum 2 (fun k => B2R (vfun v k))) = 5).
  { unfold sq_sum. cbn [sumn]. rewrite V0, V1. replace (add (add zero (3 * 3)) (4 * 4)) with (5 * 5) by (lazy [add zero R_Num]; ring).
    apply sqrt_square. lra. }
  assert (U : uro (prec := 53) <= / 100000000000).
  { unfold uro. change (1 - 53)%Z with (-52)%Z. cbn. lra. }
  pose proof (uro_pos (prec := 53)) as U0.
  destruct (c81_normalize_error_partial D2 v 0 ltac:(lia) ltac:(cbn; lia)) as (u & E & H).
  - intros k Hk. cbn [dimn] in Hk. all_lt k Hk; [apply (int_grid 3)|apply (int_grid 4)]; vm_compute; discriminate.
  - vm_compute. reflexivity.
  - cbn [dimn pow]. nra.
  - cbn [dimn]. rewrite N. lra.
  - exists u. split; [exact E| ]. destruct (H 1%nat ltac:(cbn; lia)) as [_ L]. cbn [dimn] in L. rewrite N, V1 in L.
    eapply Rle_trans; [exact L| ]. rewrite (Rabs_pos_eq (4 / 5)) by lra.
    assert (T : eta (prec := 53) (emax := 1024) <= / 100000000000).
    { apply Rle_trans with (/ 2 * bpow radix2 (-52)); [ |cbn; lra]. apply Rmult_le_compat_l; [lra|apply bpow_le; lia]. }
    set (g := (1 + uro (prec := 53)) ^ 3 - 1) in *. assert (G : 0 <= g <= 4 * uro (prec := 53)) by (unfold g; cbn [pow]; nra).
    clearbody g. set (w := uro (prec := 53)) in *. clearbody w.
    assert (Q : (1 + w) / (1 - g) <= 1 + 8 * w).
    { apply (Rmult_le_reg_r (1 - g)); [lra| ]. unfold Rdiv. rewrite Rmult_assoc, Rinv_l, Rmult_1_r by lra. nra. }
    lra.
Qed.
