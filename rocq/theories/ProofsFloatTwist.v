(** * ProofsFloatTwist: the exponential of float twists (C104) *)

From Coq Require Import List Arith ZArith Reals Bool Lra Lia.
From Flocq Require Import Core Relative Sterbenz Mult_error IEEE754.BinarySingleNaN.
From Verif Require Import Base Scalar Vec Mat2 Mat3 Mat4 Mat5 Mat6 Slices MatLoops MatOps Quat Transf DualQuat RingDet Spec LoopFacts Entries InstZ InstR RFacts TrigFacts LUFacts QRFacts ProofsRing ProofsQuat ProofsRot ProofsRigid ProofsEuler ProofsSlerp InstF FloatFacts ProofsFloat ProofsFloat2 ProofsFloatErr ProofsFloatInv ProofsFloatNorm ProofsFloatRot ProofsFloatDrift ProofsFloatRigid ProofsFloatDQ ProofsFloatFromRot ProofsFloatRotH ProofsFloatQR ExpSeries ProofsExp ProofsFloatAngles ProofsFloatChain ProofsFloatEuler ProofsFloatLog ProofsFloatScrew ProofsFloatSlerp ProofsFloatAxis ProofsFloatExp.
Local Open Scope R_scope.

Section F.
Context {prec emax : Z} {Hp : Prec_gt_0 prec} {He : Prec_lt_emax prec emax} {O : FOracle (binary_float prec emax)}.
Notation fl := (binary_float prec emax).
Notation uro := (uro (prec := prec)).
Notation eta := (eta (prec := prec) (emax := emax)).
Hypothesis Hp11 : (11 <= prec)%Z.
Hypothesis He4 : (4 * prec <= emax)%Z.

(** the skew matrix of a rotation vector divided by its length *)
Lemma skew_close (v : V3 fl) : norm_ok v -> close3 (553 / 100 * uro) (m33_div (skew_from_vec v) (v3_norm2 v)) (skew_from_vec (dir3 v)).
Proof.
  intros Nv. destruct (norm_val Hp11 v Nv) as [Np NV]. destruct (dir_unit v Np) as [DU DS].
  pose proof (uro_small Hp11) as U. pose proof (uro_pos (prec := prec)) as P. pose proof (eta_tiny Hp11 He4) as Ht. assert (T0 : 0 <= eta) by apply eta_pos.
  destruct Nv as [Fn Hn]. set (n := v3_norm2 v) in *. set (N := len3 v) in *.
  assert (Nn : (1 - 28 / 10 * uro) * N <= B2R n <= (1 + 28 / 10 * uro) * N) by (apply Rabs_le_inv in NV; split; lra).
  assert (n0 : 0 < B2R n) by (eapply Rlt_le_trans; [ |apply Nn]; apply Rmult_lt_0_compat; lra).
  (* the divided matrix *)
  set (K := mfun (skew_from_vec (dir3 v))).
  assert (G : forall i j, (i < 3)%nat -> (j < 3)%nat -> exists x : fl, mfun (m33_div (skew_from_vec v) n) i j = Bdiv mode_NE x n /\ is_finite x = true /\ B2R x = N * K i j).
  { assert (FV : forall k, (k < 3)%nat -> is_finite (vfun v k) = true).
    { intros k Hk. assert (Ex : n = Bsqrt mode_NE (dotl 3 (vfun v) (vfun v))).
      { change n with (d_vnorm2 D3 v). rewrite d_vnorm2_root, d_vdot_dotl. reflexivity. }
      rewrite Ex in Fn. apply finite_root in Fn. destruct (dotl_error 3 (vfun v) (vfun v) ltac:(lia) Fn) as [Fa _]. apply (Fa k Hk). }
    pose proof (FV 0%nat ltac:(lia)) as F0. pose proof (FV 1%nat ltac:(lia)) as F1. pose proof (FV 2%nat ltac:(lia)) as F2. clear FV.
    intros i j Hi Hj. 
    assert (V0 : B2R (vfun v 0) = N * (B2R (vfun v 0) / N)) by (field; lra). assert (V1 : B2R (vfun v 1) = N * (B2R (vfun v 1) / N)) by (field; lra). assert (V2 : B2R (vfun v 2) = N * (B2R (vfun v 2) / N)) by (field; lra).
    assert (W0 : B2R (Bopp (vfun v 0)) = N * - (B2R (vfun v 0) / N)) by (rewrite B2R_Bopp; lra). assert (W1 : B2R (Bopp (vfun v 1)) = N * - (B2R (vfun v 1) / N)) by (rewrite B2R_Bopp; lra). assert (W2 : B2R (Bopp (vfun v 2)) = N * - (B2R (vfun v 2) / N)) by (rewrite B2R_Bopp; lra).
    assert (G0 : is_finite (Bopp (vfun v 0)) = true) by (rewrite is_finite_Bopp; exact F0). assert (G1 : is_finite (Bopp (vfun v 1)) = true) by (rewrite is_finite_Bopp; exact F1). assert (G2 : is_finite (Bopp (vfun v 2)) = true) by (rewrite is_finite_Bopp; exact F2).
    assert (Z1 : is_finite (zero : fl) = true) by reflexivity. assert (Z2 : B2R (zero : fl) = N * 0) by (cbn [B2R zero F_Num]; ring).
    assert (KE : forall i j, (i < 3)%nat -> (j < 3)%nat -> exists x : fl, mfun (m33_div (skew_from_vec v) n) i j = Bdiv mode_NE x n /\
      ((x = vfun v 0 /\ K i j = B2R (vfun v 0) / N) \/ (x = vfun v 1 /\ K i j = B2R (vfun v 1) / N) \/ (x = vfun v 2 /\ K i j = B2R (vfun v 2) / N) \/
       (x = Bopp (vfun v 0) /\ K i j = - (B2R (vfun v 0) / N)) \/ (x = Bopp (vfun v 1) /\ K i j = - (B2R (vfun v 1) / N)) \/ (x = Bopp (vfun v 2) /\ K i j = - (B2R (vfun v 2) / N)) \/ (x = zero /\ K i j = 0))).
    { unfold K, N. clear. intros i j Hi Hj. generalize n. intros n0. unfold dir3. generalize (len3 v). intros l. destruct v as (v0&v1&v2&[]).
      destruct i as [ |[ |[ |i]]]; [ | | |lia]; (destruct j as [ |[ |[ |j]]]; [ | | |lia]); (eexists; split; [reflexivity| ]);
      first [left; split; reflexivity|right; left; split; reflexivity|right; right; left; split; reflexivity|right; right; right; left; split; reflexivity
            |right; right; right; right; left; split; reflexivity|right; right; right; right; right; left; split; reflexivity|right; right; right; right; right; right; split; reflexivity]. }
    destruct (KE i j Hi Hj) as (x & Ex & H). exists x. split; [exact Ex| ].
    destruct H as [[Hx ->]|[[Hx ->]|[[Hx ->]|[[Hx ->]|[[Hx ->]|[[Hx ->]|[Hx ->]]]]]]]; subst x; split; assumption. }
  assert (NK : fnorm K * fnorm K = 2).
  { rewrite fnorm_fro. unfold K. revert DU. generalize (dir3 v). clear. intros a Ua. destruct a as (x&y&z&[]).
    assert (Ua' : x * x + y * y + z * z = 1) by exact Ua. replace 2 with (2 * (x * x + y * y + z * z)) by lra. unfold fro2, sq_sum. 
    lazy [sumn mfun skew_from_vec List.nth List.map alist ahd atl acons anil fst snd vfun ix0 ix1 ix2 neg zero add mul R_Num R_Signed Nat.div Nat.modulo Nat.divmod Nat.sub]. ring. }
  assert (BK : fnorm K <= 14143 / 10000) by (pose proof (fnorm_pos K); nra).
  assert (G2 : forall i j, (i < 3)%nat -> (j < 3)%nat -> is_finite (mfun (m33_div (skew_from_vec v) n) i j) = true /\ Rabs (mR (m33_div (skew_from_vec v) n) i j - K i j) <= 39 / 10 * uro * Rabs (K i j) + eta).
  { intros i j Hi Hj. destruct (G i j Hi Hj) as (x & Ex & Fx & Vx). unfold mR. rewrite Ex. pose proof (fnorm_entry K i j Hi Hj) as KB. set (k := K i j) in *.
    assert (R0 : exists g, B2R x / B2R n = k * (1 + g) /\ Rabs g <= 283 / 100 * uro).
    { exists (N / B2R n - 1). split; [rewrite Vx; field; lra| ].
      replace (N / B2R n - 1) with ((N - B2R n) / B2R n) by (field; lra). unfold Rdiv. rewrite Rabs_mult, (Rabs_pos_eq (/ B2R n)) by (left; apply Rinv_0_lt_compat, n0).
      apply (Rmult_le_reg_r (B2R n)); [exact n0| ]. rewrite Rmult_assoc, Rinv_l, Rmult_1_r by lra. rewrite Rabs_minus_sym. eapply Rle_trans; [exact NV| ].
      destruct Nn as [Nn _]. assert (283 / 100 * uro * ((1 - 28 / 10 * uro) * N) <= 283 / 100 * uro * B2R n) by (apply Rmult_le_compat_l; lra).
      assert (28 / 10 * uro * N <= 283 / 100 * uro * ((1 - 28 / 10 * uro) * N)); [ |lra].
      replace (283 / 100 * uro * ((1 - 28 / 10 * uro) * N)) with (uro * N * (283 / 100 * (1 - 28 / 10 * uro))) by ring. replace (28 / 10 * uro * N) with (uro * N * (28 / 10)) by ring.
      apply Rmult_le_compat_l; [apply Rmult_le_pos; lra|lra]. }
    destruct R0 as (g & Rg & Lg). assert (B1 : Rabs (1 + g) <= 101 / 100) by (eapply Rle_trans; [apply Rabs_triang|rewrite Rabs_R1; lra]).
    assert (B2 : Rabs (B2R x / B2R n) <= 2) by (rewrite Rg, Rabs_mult; pose proof (Rabs_pos k); assert (Rabs k * Rabs (1 + g) <= 14143 / 10000 * (101 / 100)) by (apply Rmult_le_compat; try apply Rabs_pos; lra); lra).
    assert (NZn : B2R n <> 0) by lra.
    destruct (div_error x n Fx NZn B2) as (Fd & ee & h & Lee & Lh & Ed). split; [exact Fd| ]. rewrite Ed, Rg.
    replace (k * (1 + g) * (1 + ee) + h - k) with (k * (g + ee * (1 + g)) + h) by ring. eapply Rle_trans; [apply Rabs_triang| ]. apply Rplus_le_compat; [ |exact Lh].
    rewrite Rabs_mult, Rmult_comm. apply Rmult_le_compat_r; [apply Rabs_pos| ]. eapply Rle_trans; [apply Rabs_triang| ]. rewrite Rabs_mult.
    assert (Rabs ee * Rabs (1 + g) <= uro * (101 / 100)) by (apply Rmult_le_compat; try apply Rabs_pos; assumption). lra. }
  split; [intros i j Hi Hj; apply (G2 i j Hi Hj)| ]. rewrite close_dst. unfold dst. fold K.
      eapply Rle_trans; [apply (fnorm_mono _ (fun i j => 39 / 10 * uro * Rabs (K i j) + eta)); intros i j Hi Hj; apply (G2 i j Hi Hj)| ].
      eapply Rle_trans; [apply (fnorm_plus (fun i j => 39 / 10 * uro * Rabs (K i j)) (fun _ _ => eta))| ].
      rewrite (fnorm_scal (39 / 10 * uro) (fun i j => Rabs (K i j))), Rabs_pos_eq by lra. rewrite fnorm_abs.
      assert (A3 : fnorm (fun _ _ => eta) <= 3 * eta) by (apply fnorm_all; [lra|intros; rewrite Rabs_pos_eq by lra; lra]).
      assert (39 / 10 * uro * fnorm K <= 39 / 10 * uro * (14143 / 10000)) by (apply Rmult_le_compat_l; lra). lra.
Qed.

Ltac ufin_go := lazymatch goal with
  | |- ufin (add _ _) _ => eapply ufin_add; [exact Hp11|exact He4|ufin_go..]
  | |- ufin (sub _ _) _ => eapply ufin_sub; [exact Hp11|exact He4|ufin_go..]
  | |- ufin (mul _ _) _ => eapply ufin_mul; [exact Hp11|exact He4|ufin_go..]
  | |- _ => eassumption
  end.

(** a product of a matrix of moderate entries with a vector *)
Lemma linear_big (r : M33 fl) (x : V3 fl) b : b = bpow radix2 (emax - 10) ->
  (forall i j, (i < 3)%nat -> (j < 3)%nat -> is_finite (mfun r i j) = true /\ Rabs (mR r i j) <= 32) -> vec_le (2 * b) x ->
  forall i, (i < 3)%nat -> let y := vfun (m33_mul_v r x) i in
  is_finite y = true /\ Rabs (B2R y - ap (mR r) (vR x) i) <= 301 / 100 * uro * aap (mR r) (vR x) i + 4 * eta.
Proof.
  intros Eb Hr Hx i Hi y. destruct (big_b Hp11 He4) as (b' & Eb' & B1 & BE). rewrite <- Eb in Eb'. subst b'.
  assert (F : is_finite y = true).
  { assert (Lr : forall j, (j < 3)%nat -> ufin (mfun r i j) (32, 0%nat)) by (intros j Hj; apply ufin_leaf; [apply Hr; assumption|apply Hr; assumption|lra]).
    assert (Lx : forall j, (j < 3)%nat -> ufin (vfun x j) (2 * b, 0%nat)) by (intros j Hj; apply ufin_leaf; [apply Hx, Hj|apply Hx, Hj|lra]).
    pose proof (Lr 0%nat ltac:(lia)) as R0. pose proof (Lr 1%nat ltac:(lia)) as R1. pose proof (Lr 2%nat ltac:(lia)) as R2.
    pose proof (Lx 0%nat ltac:(lia)) as X0. pose proof (Lx 1%nat ltac:(lia)) as X1. pose proof (Lx 2%nat ltac:(lia)) as X2.
    clear Eb Lr Lx Hr Hx. revert R0 R1 R2 X0 X1 X2. subst y.
    destruct r as ((r00&r01&r02&[])&(r10&r11&r12&[])&(r20&r21&r22&[])&[]), x as (x0&x1&x2&[]).
    destruct i as [ |[ |[ |i]]]; [ | | |lia];
    lazy [m33_mul_v vfun mfun List.nth List.map alist ix0 ix1 ix2 ix3 ahd atl acons anil fst snd];
    intros R0 R1 R2 X0 X1 X2;
    (eapply (ufin_done Hp11 _ _ _ _ (256 * b) 100); [ufin_go|reflexivity|lra|cbn; lra|lra|lra]). }
  split; [exact F| ].
  pose proof (c50_mul_v_error D3 r x i ltac:(cbn; lia) F) as E. unfold err in E.
  change (d_mul_v D3 r x) with (m33_mul_v r x) in E. fold y in E.
  match type of E with Rabs (_ - ?s) <= _ * ?m + _ => assert (E1 : s = ap (mR r) (vR x) i); [ |assert (E2 : m = aap (mR r) (vR x) i)] end.
  { unfold ap, mR, vR. cbn [dimn sumn]. lazy [add mul zero R_Num]. ring. }
  { unfold aap, mR, vR. cbn [dimn sumn]. lazy [add mul zero R_Num]. ring. }
  rewrite E1, E2 in E. eapply Rle_trans; [exact E| ]. clear E E1 E2.
  pose proof (uro_small Hp11) as U. pose proof (uro_pos (prec := prec)) as P. assert (E0 : 0 <= eta) by apply eta_pos.
  pose proof (pow_lin Hp11 3 (301 / 100) ltac:(cbn; lra) ltac:(lra)) as P4. pose proof (pow_mono 0 3 ltac:(lia) : _ <= _ <= (1 + uro) ^ 3) as [_ P4']. rewrite pow_O in P4'.
  change (dimn D3) with 3%nat. set (p := (1 + uro) ^ 3) in *. clearbody p. pose proof (aap_pos (mR r) (vR x) i) as A0.
  apply Rplus_le_compat; [apply Rmult_le_compat_r; lra| ]. apply Rmult_le_compat_r; [exact E0|cbn [INR]; lra].
Qed.


(** ** the matrix multiplying the linear velocity *)
Definition jac_fl (S : M33 fl) (n s c : fl) : M33 fl :=
  m33_add (m33_add (m33_scale m33_identity n) (m33_scale S (sub one c))) (m33_scale (m33_mul S S) (sub n s)).
Definition jacR (a : V3 R) (t : R) (i j : nat) : R :=
  t * dlt i j + (1 - cos t) * mfun (skew_from_vec a) i j + (t - sin t) * mm (mfun (skew_from_vec a)) (mfun (skew_from_vec a)) i j.

Lemma skew_sizes (a : V3 R) : v3_dot a a = 1 -> fnorm (mfun (skew_from_vec a)) <= 14143 / 10000 /\ fnorm (mm (mfun (skew_from_vec a)) (mfun (skew_from_vec a))) <= 14143 / 10000 /\
  (forall i j, (i < 3)%nat -> (j < 3)%nat -> Rabs (mfun (skew_from_vec a) i j) <= 1).
Proof.
  intros Ua. set (K := mfun (skew_from_vec a)). split; [ |split].
  - assert (NK : fnorm K * fnorm K = 2).
    { rewrite fnorm_fro. unfold K. revert Ua. clear. destruct a as (x&y&z&[]). intros Ua.
      assert (Ua' : x * x + y * y + z * z = 1) by exact Ua. replace 2 with (2 * (x * x + y * y + z * z)) by lra. unfold fro2, sq_sum.
      lazy [sumn mfun skew_from_vec List.nth List.map alist ahd atl acons anil fst snd vfun ix0 ix1 ix2 neg zero add mul R_Num R_Signed Nat.div Nat.modulo Nat.divmod Nat.sub]. ring. }
    pose proof (fnorm_pos K); nra.
  - assert (NK2 : fnorm (mm K K) * fnorm (mm K K) = 2).
    { rewrite fnorm_fro. unfold K. revert Ua. clear. destruct a as (x&y&z&[]). intros Ua.
      assert (Ua' : x * x + y * y + z * z = 1) by exact Ua. replace 2 with (2 * (x * x + y * y + z * z) * (x * x + y * y + z * z)) by (rewrite Ua'; ring). unfold fro2, sq_sum, mm.
      lazy [sumn mfun skew_from_vec List.nth List.map alist ahd atl acons anil fst snd vfun ix0 ix1 ix2 neg zero add mul R_Num R_Signed Nat.div Nat.modulo Nat.divmod Nat.sub]. ring. }
    pose proof (fnorm_pos (mm K K)); nra.
  - intros i j Hi Hj. unfold K. revert Ua. clear - Hi Hj. destruct a as (x&y&z&[]). intros Ua. assert (Ua' : x * x + y * y + z * z = 1) by exact Ua.
    assert (GG : forall w, w * w <= 1 -> Rabs w <= 1) by (intros w Hw; apply Rabs_le; split; nra).
    apply GG. destruct i as [ |[ |[ |i]]]; [ | | |lia]; (destruct j as [ |[ |[ |j]]]; [ | | |lia]);
      lazy [mfun skew_from_vec List.nth List.map alist ahd atl acons anil fst snd vfun ix0 ix1 ix2 neg zero add mul R_Num R_Signed]; nra.
Qed.

(** scaling a matrix near [X] by a float near [x] *)
Lemma scale_near (M : M33 fl) (f : fl) (X : nat -> nat -> R) x d g B b : finm M -> is_finite f = true -> dst (mR M) X <= d -> Rabs (B2R f - x) <= g -> fnorm (mR M) <= B -> fnorm X <= B -> Rabs (B2R f) <= b -> b * B <= 100 -> 
  finm (m33_scale M f) /\ dst (mR (m33_scale M f)) (fun i j => x * X i j) <= uro * (b * B) + 3 * eta + b * d + g * B.
Proof.
  intros FM Ff D G BM BX Bf L. pose proof (uro_pos (prec := prec)) as P. pose proof (fnorm_pos (mR M)) as M0. pose proof (fnorm_pos X) as X0. pose proof (Rabs_pos (B2R f)) as f0. pose proof (dst_pos (mR M) X) as d0. pose proof (Rabs_pos (B2R f - x)) as g0.
  assert (L1 : Rabs (B2R f) * fnorm (mR M) <= b * B) by (apply Rmult_le_compat; assumption).
  destruct (fm_scale_big Hp11 He4 M f FM Ff ltac:(lra)) as [F E]. split; [exact F| ].
  eapply Rle_trans; [apply (dst_tri _ (fun i j => B2R f * mR M i j))| ].
  assert (Q : dst (fun i j => B2R f * mR M i j) (fun i j => x * X i j) <= b * d + g * B).
  { unfold dst. rewrite (fnorm_ext _ (fun i j => B2R f * (mR M i j - X i j) + (B2R f - x) * X i j)) by (intros; ring).
    eapply Rle_trans; [apply (fnorm_plus (fun i j => B2R f * (mR M i j - X i j)) (fun i j => (B2R f - x) * X i j))| ].
    rewrite (fnorm_scal (B2R f) (fun i j => mR M i j - X i j)), (fnorm_scal (B2R f - x) X). fold (dst (mR M) X).
    apply Rplus_le_compat; apply Rmult_le_compat; assumption. }
  assert (uro * (Rabs (B2R f) * fnorm (mR M)) <= uro * (b * B)) by (apply Rmult_le_compat_l; lra). lra.
Qed.
Lemma add_near (M N : M33 fl) (X Y : nat -> nat -> R) d d' B : finm M -> finm N -> dst (mR M) X <= d -> dst (mR N) Y <= d' -> fnorm (mR M) + fnorm (mR N) <= B -> B <= 100 ->
  finm (m33_add M N) /\ dst (mR (m33_add M N)) (fun i j => X i j + Y i j) <= uro * B + d + d'.
Proof.
  intros FM FN D D' L LB. pose proof (uro_pos (prec := prec)) as P. pose proof (fnorm_plus (mR M) (mR N)) as FP.
  destruct (fm_add Hp11 He4 M N FM FN ltac:(lra)) as [F E]. split; [exact F| ].
  eapply Rle_trans; [apply (dst_tri _ (fun i j => mR M i j + mR N i j))| ].
  assert (uro * fnorm (fun i j => mR M i j + mR N i j) <= uro * B) by (apply Rmult_le_compat_l; lra).
  assert (dst (fun i j => mR M i j + mR N i j) (fun i j => X i j + Y i j) <= d + d'); [ |lra].
  unfold dst. rewrite (fnorm_ext _ (fun i j => (mR M i j - X i j) + (mR N i j - Y i j))) by (intros; ring).
  eapply Rle_trans; [apply (fnorm_plus (fun i j => mR M i j - X i j) (fun i j => mR N i j - Y i j))| ]. fold (dst (mR M) X) (dst (mR N) Y). lra.
Qed.

Lemma jac_core (a : V3 R) (t e : R) (S : M33 fl) (n s c : fl) : v3_dot a a = 1 -> 0 < t <= 7 -> close3 (553 / 100 * uro) S (skew_from_vec a) -> e <= / 250 ->
  is_finite n = true -> is_finite s = true -> is_finite c = true -> Rabs (B2R n - t) <= 28 / 10 * uro * t -> Rabs (B2R s - sin t) <= e -> Rabs (B2R c - cos t) <= e ->
  finm (jac_fl S n s c) /\ dst (mR (jac_fl S n s c)) (jacR a t) <= 286 / 100 * e + 336 * uro /\ fnorm (mR (jac_fl S n s c)) <= 272 / 10.
Proof.
  intros Ua Ht0 [FS CS] Le Fn Fs Fc En Es Ec. rewrite close_dst in CS. destruct (skew_sizes a Ua) as (BK & BK2 & KE). fold (finm S) in FS.
  pose proof (uro_small Hp11) as U. pose proof (uro_pos (prec := prec)) as P. pose proof (eta_tiny Hp11 He4) as Ht. assert (T0 : 0 <= eta) by apply eta_pos.
  set (K := mfun (skew_from_vec a)) in *.
  assert (E0 : 0 <= e) by (pose proof (Rabs_pos (B2R s - sin t)); lra).
  pose proof (SIN_bound t) as SB. pose proof (COS_bound t) as CB. unfold jacR. fold K. set (sn := sin t) in *. set (cn := cos t) in *.
  assert (En' : Rabs (B2R n - t) <= 196 / 10 * uro) by (eapply Rle_trans; [exact En| ]; assert (uro * t <= uro * 7) by (apply Rmult_le_compat_l; lra); lra).
  apply Rabs_le_inv in Es. apply Rabs_le_inv in Ec. pose proof (Rabs_le_inv _ _ En') as En2.
  destruct one_val as [F1 V1].
  destruct (sub_ok Hp11 He4 one c F1 Fc) as [Ff Ef]; [rewrite V1; apply Rabs_le; lra| ]. rewrite V1 in Ef. set (f := sub one c) in *.
  assert (Rabs (1 - B2R c) <= 2004 / 1000) by (apply Rabs_le; lra).
  assert (Ef1 : Rabs (B2R f - (1 - cn)) <= e + 2004 / 1000 * uro).
  { assert (uro * Rabs (1 - B2R c) <= uro * (2004 / 1000)) by (apply Rmult_le_compat_l; lra). apply Rabs_le_inv in Ef. apply Rabs_le. lra. }
  pose proof (Rabs_le_inv _ _ Ef1) as Ef2.
  destruct (sub_ok Hp11 He4 n s Fn Fs) as [Fg Eg]; [apply Rabs_le; lra| ]. set (g := sub n s) in *.
  assert (Rabs (B2R n - B2R s) <= 8014 / 1000) by (apply Rabs_le; lra).
  assert (Eg1 : Rabs (B2R g - (t - sn)) <= e + 2762 / 100 * uro).
  { assert (uro * Rabs (B2R n - B2R s) <= uro * (8014 / 1000)) by (apply Rmult_le_compat_l; lra). apply Rabs_le_inv in Eg. apply Rabs_le. lra. }
  pose proof (Rabs_le_inv _ _ Eg1) as Eg2.
  assert (FI : finm m33_identity) by (intros i j Hi Hj; clear - Hi Hj; destruct i as [ |[ |[ |i]]]; [ | | |lia]; (destruct j as [ |[ |[ |j]]]; [ | | |lia]); reflexivity || apply one_val).
  assert (VI : forall i j, (i < 3)%nat -> (j < 3)%nat -> mR m33_identity i j = dlt i j).
  { intros i j Hi Hj. clear - Hi Hj Hp11. destruct (one_val) as [_ V1]. destruct i as [ |[ |[ |i]]]; [ | | |lia]; (destruct j as [ |[ |[ |j]]]; [ | | |lia]); exact V1 || reflexivity. }
  assert (ND : fnorm dlt <= 17321 / 10000) by (apply fnorm_le; [lra| ]; unfold fro2; lazy [sumn dlt Nat.eqb add zero mul R_Num sq_sum]; lra).
  assert (NI : fnorm (mR m33_identity) <= 17321 / 10000) by (rewrite (fnorm_ext _ dlt) by exact VI; exact ND).
  assert (DI : dst (mR m33_identity) dlt <= 0).
  { unfold dst. rewrite (fnorm_ext _ (fun _ _ => 0 * 0)) by (intros i j Hi Hj; rewrite (VI i j Hi Hj); ring). rewrite (fnorm_scal 0 (fun _ _ => 0)), Rabs_R0. lra. }
  assert (Bn : Rabs (B2R n) <= 701 / 100) by (apply Rabs_le; lra).
  destruct (scale_near m33_identity n dlt t 0 (196 / 10 * uro) (17321 / 10000) (701 / 100) FI Fn DI En' NI ND Bn ltac:(lra)) as [F0 Q0].
  assert (BS : fnorm (mR S) <= 1425 / 1000) by (eapply Rle_trans; [apply (fnorm_dst _ K)|lra]). pose proof (fnorm_pos (mR S)) as S0. pose proof (fnorm_pos K) as K0.
  assert (Bf : Rabs (B2R f) <= 201 / 100) by (apply Rabs_le; lra).
  destruct (scale_near S f K (1 - cn) _ _ (1425 / 1000) (201 / 100) FS Ff CS Ef1 BS ltac:(lra) Bf ltac:(lra)) as [F1s Q1].
  assert (SE : forall i j, (i < 3)%nat -> (j < 3)%nat -> Rabs (mR S i j) <= 101 / 100).
  { intros i j Hi Hj. pose proof (fnorm_entry (fun i j => mR S i j - K i j) i j Hi Hj) as A2. cbv beta in A2. fold (dst (mR S) K) in A2. pose proof (KE i j Hi Hj).
    replace (mR S i j) with ((mR S i j - K i j) + K i j) by ring. eapply Rle_trans; [apply Rabs_triang|lra]. }
  destruct (fm_mul Hp11 He4 S S FS FS SE SE) as [F2 E2]. set (P2 := m33_mul S S) in *. pose proof (dst_pos (mR S) K) as D0. set (D := dst (mR S) K) in *.
  assert (Q2 : dst (mR P2) (mm K K) <= 219 / 10 * uro).
  { eapply Rle_trans; [apply (dst_tri _ (mm (mR S) (mR S)))| ].
    assert (X : dst (mm (mR S) (mR S)) (mm K K) <= fnorm (mR S) * D + D * fnorm K).
    { unfold dst. rewrite (fnorm_ext _ (fun i j => mm (mR S) (fun i j => mR S i j - K i j) i j + mm (fun i j => mR S i j - K i j) K i j)) by (intros; unfold mm; ring).
      eapply Rle_trans; [apply fnorm_plus| ]. apply Rplus_le_compat; apply fnorm_mm. }
    assert (Y : fnorm (mR S) * D <= 1425 / 1000 * D) by (apply Rmult_le_compat_r; lra). assert (Y2 : D * fnorm K <= D * (1415 / 1000)) by (apply Rmult_le_compat_l; lra).
    assert (Y3 : fnorm (mR S) * fnorm (mR S) <= 1425 / 1000 * (1425 / 1000)) by (apply Rmult_le_compat; lra).
    assert (301 / 100 * uro * (fnorm (mR S) * fnorm (mR S)) <= 301 / 100 * uro * (1425 / 1000 * (1425 / 1000))) by (apply Rmult_le_compat_l; lra). lra. }
  assert (B2 : fnorm (mR P2) <= 1430 / 1000) by (eapply Rle_trans; [apply (fnorm_dst _ (mm K K))|lra]).
  assert (Bg : Rabs (B2R g) <= 802 / 100) by (apply Rabs_le; lra).
  destruct (scale_near P2 g (mm K K) (t - sn) _ _ (1430 / 1000) (802 / 100) F2 Fg Q2 Eg1 B2 ltac:(lra) Bg ltac:(lra)) as [F3 Q3].
  set (P0 := m33_scale m33_identity n) in *. set (P1 := m33_scale S f) in *. set (P3 := m33_scale P2 g) in *.
  assert (N0 : fnorm (mR P0) <= 1216 / 100).
  { eapply Rle_trans; [apply (fnorm_dst _ (fun i j => t * dlt i j))| ]. rewrite (fnorm_scal t dlt), Rabs_pos_eq by lra. assert (t * fnorm dlt <= 7 * (17321 / 10000)) by (apply Rmult_le_compat; try lra; apply fnorm_pos). lra. }
  assert (N1 : fnorm (mR P1) <= 285 / 100).
  { eapply Rle_trans; [apply (fnorm_dst _ (fun i j => (1 - cn) * K i j))| ]. rewrite (fnorm_scal (1 - cn) K), Rabs_pos_eq by lra. assert ((1 - cn) * fnorm K <= 2 * (14143 / 10000)) by (apply Rmult_le_compat; lra). lra. }
  assert (N3 : fnorm (mR P3) <= 1145 / 100).
  { eapply Rle_trans; [apply (fnorm_dst _ (fun i j => (t - sn) * mm K K i j))| ]. rewrite (fnorm_scal (t - sn) (mm K K)). assert (Rabs (t - sn) <= 8) by (apply Rabs_le; lra).
    assert (Rabs (t - sn) * fnorm (mm K K) <= 8 * (14143 / 10000)) by (apply Rmult_le_compat; try lra; [apply Rabs_pos|apply fnorm_pos]). lra. }
  destruct (add_near P0 P1 _ _ _ _ (151 / 10) F0 F1s Q0 Q1 ltac:(lra) ltac:(lra)) as [F4 Q4]. set (P4 := m33_add P0 P1) in *.
  assert (N4 : fnorm (mR P4) <= 1503 / 100).
  { destruct (fm_add Hp11 He4 P0 P1 F0 F1s) as [_ E4]; [eapply Rle_trans; [apply fnorm_plus|lra]| ]. pose proof (fnorm_plus (mR P0) (mR P1)) as FP.
    eapply Rle_trans; [apply (fnorm_dst _ (fun i j => mR P0 i j + mR P1 i j))| ]. fold P4 in E4. 
    assert (uro * fnorm (fun i j => mR P0 i j + mR P1 i j) <= uro * (151 / 10)) by (apply Rmult_le_compat_l; lra). lra. }
  destruct (add_near P4 P3 _ _ _ _ (265 / 10) F4 F3 Q4 Q3 ltac:(lra) ltac:(lra)) as [F5 Q5].
  change (jac_fl S n s c) with (m33_add P4 P3). split; [exact F5|split].
  - eapply Rle_trans; [exact Q5| ]. lra.
  - destruct (fm_add Hp11 He4 P4 P3 F4 F3) as [_ E5]; [eapply Rle_trans; [apply fnorm_plus|lra]| ]. pose proof (fnorm_plus (mR P4) (mR P3)) as FP.
    eapply Rle_trans; [apply (fnorm_dst _ (fun i j => mR P4 i j + mR P3 i j))| ].
    assert (uro * fnorm (fun i j => mR P4 i j + mR P3 i j) <= uro * (265 / 10)) by (apply Rmult_le_compat_l; lra). lra.
Qed.

(** ** the exact matrix *)
Lemma jac_exact (a x : V3 R) t i : (i < 3)%nat -> t <> 0 -> ap (jacR a t) (vfun x) i = t * vfun (m33_mul_v (left_jacobian a t) x) i.
Proof.
  intros Hi T. unfold jacR, left_jacobian, ap, dlt, mm. cbv zeta. generalize (cos t) (sin t). intros c s. clear - Hi T. destruct a as (a0&a1&a2&[]), x as (x0&x1&x2&[]).
  destruct i as [ |[ |[ |i]]]; [ | | |lia];
    lazy [mfun m33_mul_v m33_add m33_scale m33_mul m33_identity skew_from_vec Nat.eqb List.nth List.map alist ahd atl acons anil fst snd vfun ix0 ix1 ix2 neg zero one add mul R_Num R_Signed]; field; exact T.
Qed.
Lemma jac_size (a : V3 R) t : v3_dot a a = 1 -> 0 < t -> fnorm (jacR a t) <= 6 * t.
Proof.
  intros Ua T. destruct (skew_sizes a Ua) as (BK & BK2 & _). unfold jacR. set (K := mfun (skew_from_vec a)) in *.
  assert (ND : fnorm dlt <= 17321 / 10000) by (apply fnorm_le; [lra| ]; unfold fro2; lazy [sumn dlt Nat.eqb add zero mul R_Num sq_sum]; lra).
  pose proof (COS_bound t) as CB. pose proof (cos_lip 0 t) as CL. rewrite cos_0 in CL. replace (0 - t) with (- t) in CL by ring. rewrite Rabs_Ropp, (Rabs_pos_eq t), (Rabs_pos_eq (1 - cos t)) in CL by lra.
  pose proof (sin_abs t) as SA. rewrite (Rabs_pos_eq t) in SA by lra. apply Rabs_le_inv in SA. pose proof (fnorm_pos K). pose proof (fnorm_pos (mm K K)). pose proof (fnorm_pos dlt).
  eapply Rle_trans; [apply (fnorm_plus (fun i j => t * dlt i j + (1 - cos t) * K i j) (fun i j => (t - sin t) * mm K K i j))| ].
  pose proof (fnorm_plus (fun i j => t * dlt i j) (fun i j => (1 - cos t) * K i j)) as A. cbv beta in A. rewrite (fnorm_scal t dlt), (fnorm_scal (1 - cos t) K) in A. rewrite (fnorm_scal (t - sin t) (mm K K)).
  rewrite (Rabs_pos_eq t), (Rabs_pos_eq (1 - cos t)) in A by lra. rewrite (Rabs_pos_eq (t - sin t)) by lra.
  assert (t * fnorm dlt <= t * (17321 / 10000)) by (apply Rmult_le_compat_l; lra).
  assert ((1 - cos t) * fnorm K <= t * (14143 / 10000)) by (apply Rmult_le_compat; lra).
  assert ((t - sin t) * fnorm (mm K K) <= (2 * t) * (14143 / 10000)) by (apply Rmult_le_compat; lra). lra.
Qed.

(** ** the model unfolded *)
Lemma exp6_eq (w v : V3 fl) : norm_ok w -> nearly_zero (v3_norm2 w) = false ->
  let n := v3_norm2 w in let S := m33_div (skew_from_vec w) n in
  matrix_exponential (skew_from_vec w) = Ok (rod_fl S (fsin n) (fcos n)) /\
  matrix_exponential6 (twist_to_se3 (tw w v)) = Ok (homogeneous_from_rotation (rod_fl S (fsin n) (fcos n)) (v3_div (m33_mul_v (jac_fl S n (fsin n) (fcos n)) v) n)).
Proof.
  intros Nv NZ n S. destruct (dir_val Hp11 He4 w Nv) as (w' & Ew & _). fold n in NZ.
  assert (E1 : matrix_exponential (skew_from_vec w) = Ok (rod_fl S (fsin n) (fcos n))).
  { unfold matrix_exponential. replace (skew_to_vec (skew_from_vec w)) with w by (destruct w as (v0&v1&v2&[]); reflexivity). fold n. rewrite NZ.
    unfold axis_angle. rewrite Ew. reflexivity. }
  split; [exact E1| ]. unfold matrix_exponential6.
  replace (se3_get_parts (twist_to_se3 (tw w v))) with (skew_from_vec w, v) by (destruct w as (w0&w1&w2&[]), v as (v0&v1&v2&[]); reflexivity).
  cbv beta iota zeta. replace (skew_to_vec (skew_from_vec w)) with w by (destruct w as (v0&v1&v2&[]); reflexivity). fold n. rewrite NZ, E1. unfold axis_angle. rewrite Ew. reflexivity.
Qed.

Lemma c104_exponential6 : forall e (w v : V3 fl), norm_ok w -> nearly_zero (v3_norm2 w) = false -> trig_ok e (v3_norm2 w) -> len3 w <= 7 -> e + 28 / 10 * uro * len3 w <= / 250 ->
  (forall k, (k < 3)%nat -> is_finite (vfun v k) = true) -> len3 v <= len3 w * bpow radix2 (emax - 12) ->
  exists (m : M44 fl) (A : M44 R), matrix_exponential6 (twist_to_se3 (tw w v)) = Ok m /\
  is_mexp 4 (mfun (twist_to_se3 (tw [| B2R (vfun w 0); B2R (vfun w 1); B2R (vfun w 2) |] [| B2R (vfun v 0); B2R (vfun v 1); B2R (vfun v 2) |]))) (mfun A) /\ SE3 A /\
  closeH (29 / 10 * e + 82 / 10 * uro * len3 w + 66 * uro) (((3 * e + 480 * uro) * len3 v + 8 * eta) / len3 w + 24 * uro * len3 v + 2 * eta) m A.
Proof.
  intros e w v Nv NZ T L7 Le Fv Lv. destruct (exp6_eq w v Nv NZ) as [EM E6]. cbv zeta in EM, E6.
  destruct (c96_exponential Hp11 He4 e w Nv NZ T Le) as (m3 & r3 & Em3 & Hm3 & S3 & C3). rewrite EM in Em3. injection Em3 as <-.
  destruct (norm_val Hp11 w Nv) as [Np NV]. destruct (dir_unit w Np) as [DU DS]. pose proof (skew_close w Nv) as CS.
  pose proof (uro_small Hp11) as U. pose proof (uro_pos (prec := prec)) as P. pose proof (eta_tiny Hp11 He4) as Ht. assert (T0 : 0 <= eta) by apply eta_pos.
  pose proof (trig_pos _ _ T) as E0. destruct T as [[Fs Es] [Fc Ec]]. destruct Nv as [Fn Hn]. set (n := v3_norm2 w) in *. set (N := len3 w) in *.
  set (S := m33_div (skew_from_vec w) n) in *. set (a := dir3 w) in *. set (e1 := e + 28 / 10 * uro * N) in *.
  assert (Ew : [| B2R (vfun w 0); B2R (vfun w 1); B2R (vfun w 2) |] = v3_scale a N).
  { assert (Q : forall k, (k < 3)%nat -> B2R (vfun w k) = B2R (vfun w k) / N * N) by (intros; field; lra).
    pose proof (Q 0%nat ltac:(lia)) as Q0. pose proof (Q 1%nat ltac:(lia)) as Q1. pose proof (Q 2%nat ltac:(lia)) as Q2. rewrite Q0, Q1, Q2 at 1. reflexivity. }
  rewrite Ew in Hm3 |- *. set (x := [| B2R (vfun v 0); B2R (vfun v 1); B2R (vfun v 2) |] : V3 R).
  assert (N0 : N <> 0) by lra.
  pose proof (mexp_twist a x N DU N0) as MT.
  assert (Er : forall i j, (i < 3)%nat -> (j < 3)%nat -> mfun r3 i j = mfun (rodrigues a N) i j) by (apply (is_mexp_unique 3 _ _ _ Hm3 (mexp_rodrigues (K := f64_consts) a N DU N0))).
  exists (homogeneous_from_rotation (rod_fl S (fsin n) (fcos n)) (v3_div (m33_mul_v (jac_fl S n (fsin n) (fcos n)) v) n)), (homogeneous_from_rotation (rodrigues a N) (m33_mul_v (left_jacobian a N) x)).
  assert (SR : SO3 (rodrigues a N)) by apply rodrigues_SO3, DU.
  assert (C3' : close3 (29 / 10 * e + 82 / 10 * uro * N + 66 * uro) (rod_fl S (fsin n) (fcos n)) (rodrigues a N)).
  { destruct C3 as [F C]. split; [exact F| ]. eapply Rle_trans; [ |exact C]. apply Req_le. f_equal. apply sumn_ext. intros i Hi. apply sumn_ext. intros j Hj. rewrite (Er i j Hi Hj). reflexivity. }
  split; [exact E6|split; [exact MT| ]].
  (* the translation *)
  assert (Es1 : Rabs (B2R (fsin n) - sin N) <= e1).
  { pose proof (sin_lip (B2R n) N) as L1. replace (B2R (fsin n) - sin N) with ((B2R (fsin n) - sin (B2R n)) + (sin (B2R n) - sin N)) by ring. eapply Rle_trans; [apply Rabs_triang| ]. unfold e1. lra. }
  assert (Ec1 : Rabs (B2R (fcos n) - cos N) <= e1).
  { pose proof (cos_lip (B2R n) N) as L1. replace (B2R (fcos n) - cos N) with ((B2R (fcos n) - cos (B2R n)) + (cos (B2R n) - cos N)) by ring. eapply Rle_trans; [apply Rabs_triang| ]. unfold e1. lra. }
  destruct (jac_core a N e1 S n (fsin n) (fcos n) DU ltac:(lra) CS Le Fn Fs Fc NV Es1 Ec1) as (FJ & DJ & BJ). set (J := jac_fl S n (fsin n) (fcos n)) in *.
  destruct (big_b Hp11 He4) as (b & Eb & B1 & BE).
  assert (Eb4 : bpow radix2 (emax - 12) = b / 4) by (rewrite Eb; replace (emax - 12)%Z with (-2 + (emax - 10))%Z by ring; rewrite bpow_plus; change (bpow radix2 (-2)) with (/ 4); field).
  rewrite Eb4 in Lv. rewrite len3_nrm in Lv |- *. set (V := nrm 3 (vR v)) in *. assert (V0 : 0 <= V) by apply nrm_pos.
  assert (LV : V <= 2 * b) by (eapply Rle_trans; [exact Lv| ]; assert (N * (b / 4) <= 7 * (b / 4)) by (apply Rmult_le_compat_r; lra); lra).
  assert (Hx : vec_le (2 * b) v) by (intros k Hk; split; [apply Fv, Hk|eapply Rle_trans; [apply (comp_nrm 3 (vR v) k Hk)|exact LV]]).
  assert (HJ : forall i j, (i < 3)%nat -> (j < 3)%nat -> is_finite (mfun J i j) = true /\ Rabs (mR J i j) <= 32) by (intros i j Hi Hj; split; [apply FJ; assumption|pose proof (fnorm_entry (mR J) i j Hi Hj); lra]).
  pose proof (linear_big J v b Eb HJ Hx) as LB. cbv zeta in LB. set (y := m33_mul_v J v) in *.
  assert (Y1 : nrm 3 (fun i => vR y i - ap (jacR a N) (vR v) i) <= (286 / 100 * e1 + 336 * uro + 82 * uro) * V + 7 * eta).
  { rewrite (nrm_ext 3 _ (fun i => (vR y i - ap (mR J) (vR v) i) + ap (fun i j => mR J i j - jacR a N i j) (vR v) i)) by (intros; unfold ap; ring).
    eapply Rle_trans; [apply nrm_plus| ].
    assert (Q1 : nrm 3 (ap (fun i j => mR J i j - jacR a N i j) (vR v)) <= (286 / 100 * e1 + 336 * uro) * V).
    { eapply Rle_trans; [apply ap_fnorm| ]. apply Rmult_le_compat_r; [exact V0|exact DJ]. }
    assert (Q2 : nrm 3 (fun i => vR y i - ap (mR J) (vR v) i) <= 82 * uro * V + 7 * eta).
    { eapply Rle_trans; [apply (nrm_mono 3 _ (fun i => 301 / 100 * uro * aap (mR J) (vR v) i + 4 * eta)); intros k Hk; apply (LB k Hk)| ].
      eapply Rle_trans; [apply (nrm_plus 3 (fun i => 301 / 100 * uro * aap (mR J) (vR v) i) (fun _ => 4 * eta))| ]. rewrite nrm_scal, (Rabs_pos_eq (301 / 100 * uro)) by lra.
      assert (A1 : nrm 3 (aap (mR J) (vR v)) <= 272 / 10 * V). { eapply Rle_trans; [apply (nrm_aap (mR J) (vR v) (fnorm (mR J))); [rewrite fnorm_fro; apply Rle_refl|apply fnorm_pos]| ]. apply Rmult_le_compat_r; assumption. }
      assert (A2 : nrm 3 (fun _ => 4 * eta) <= 7 * eta) by (apply nrm_le; [lra| ]; unfold sq_sum; lazy [sumn add mul zero R_Num]; nra).
      assert (301 / 100 * uro * nrm 3 (aap (mR J) (vR v)) <= 301 / 100 * uro * (272 / 10 * V)) by (apply Rmult_le_compat_l; lra). assert (0 <= uro * V) by (apply Rmult_le_pos; lra). lra. }
    lra. }
  assert (L1 : 286 / 100 * e1 + 336 * uro + 82 * uro <= 286 / 100 * e + 4741 / 10 * uro) by (unfold e1; assert (uro * N <= uro * 7) by (apply Rmult_le_compat_l; lra); lra).
  set (G := ((286 / 100 * e + 4741 / 10 * uro) * V + 7 * eta)).
  assert (Y2 : nrm 3 (fun i => vR y i - ap (jacR a N) (vR v) i) <= G) by (eapply Rle_trans; [exact Y1| ]; unfold G; apply Rplus_le_compat_r, Rmult_le_compat_r; [exact V0|exact L1]). clear Y1 L1.
  assert (G0 : 0 <= G) by (unfold G; assert (0 <= (286 / 100 * e + 4741 / 10 * uro) * V) by (apply Rmult_le_pos; lra); lra).
  assert (JV : nrm 3 (ap (jacR a N) (vR v)) <= 6 * N * V) by (eapply Rle_trans; [apply ap_fnorm| ]; apply Rmult_le_compat_r; [exact V0|apply jac_size; [exact DU|lra]]).
  assert (NY : nrm 3 (vR y) <= 6 * N * V + G).
  { rewrite (nrm_ext 3 _ (fun i => ap (jacR a N) (vR v) i + (vR y i - ap (jacR a N) (vR v) i))) by (intros; ring). eapply Rle_trans; [apply nrm_plus| ]. lra. }
  (* the division *)
  assert (Nn : (1 - 28 / 10 * uro) * N <= B2R n <= (1 + 28 / 10 * uro) * N) by (apply Rabs_le_inv in NV; split; lra).
  assert (n0 : 0 < B2R n) by (eapply Rlt_le_trans; [ |apply Nn]; apply Rmult_lt_0_compat; lra).
  assert (Rg : exists g, / B2R n = / N * (1 + g) /\ Rabs g <= 283 / 100 * uro).
  { exists (N / B2R n - 1). split; [field; lra| ].
    replace (N / B2R n - 1) with ((N - B2R n) / B2R n) by (field; lra). unfold Rdiv. rewrite Rabs_mult, (Rabs_pos_eq (/ B2R n)) by (left; apply Rinv_0_lt_compat, n0).
    apply (Rmult_le_reg_r (B2R n)); [exact n0| ]. rewrite Rmult_assoc, Rinv_l, Rmult_1_r by lra. rewrite Rabs_minus_sym. eapply Rle_trans; [exact NV| ].
    destruct Nn as [Nn _]. assert (283 / 100 * uro * ((1 - 28 / 10 * uro) * N) <= 283 / 100 * uro * B2R n) by (apply Rmult_le_compat_l; lra).
    assert (28 / 10 * uro * N <= 283 / 100 * uro * ((1 - 28 / 10 * uro) * N)); [ |lra].
    replace (283 / 100 * uro * ((1 - 28 / 10 * uro) * N)) with (uro * N * (283 / 100 * (1 - 28 / 10 * uro))) by ring. replace (28 / 10 * uro * N) with (uro * N * (28 / 10)) by ring.
    apply Rmult_le_compat_l; [apply Rmult_le_pos; lra|lra]. }
  destruct Rg as (g & Eg & Lg). assert (iN : 0 < / N) by (apply Rinv_0_lt_compat; lra).
  assert (GN : G * / N <= / 2 * b).
  { assert (A1 : (286 / 100 * e + 4741 / 10 * uro) * V <= / 4 * (N * b)).
    { assert ((286 / 100 * e + 4741 / 10 * uro) * V <= / 2 * V). { apply Rmult_le_compat_r; [exact V0| ]. assert (0 <= uro * N) by (apply Rmult_le_pos; lra). unfold e1 in Le. lra. }
      assert (N * (b / 4) = / 4 * (N * b)) by field. assert (0 <= N * b) by (apply Rmult_le_pos; lra). lra. }
    assert (A2 : 7 * eta <= / 4 * (N * b)).
    { assert (B2R n * B2R n <= (2 * N) * (2 * 7)) by (apply Rmult_le_compat; try lra; assert (uro * N <= / 2048 * N) by (apply Rmult_le_compat_r; lra); lra).
      assert (uro * (B2R n * B2R n) <= / 2048 * ((2 * N) * (2 * 7))) by (apply Rmult_le_compat; try lra; apply Rmult_le_pos; lra). assert (N * 1 <= N * b) by (apply Rmult_le_compat_l; lra). lra. }
    apply (Rmult_le_reg_r N); [lra| ]. rewrite Rmult_assoc, Rinv_l, Rmult_1_r by exact N0. unfold G. lra. }
  assert (YN : nrm 3 (vR y) * / N <= 6 * V + G * / N).
  { apply Rle_trans with ((6 * N * V + G) * / N); [apply Rmult_le_compat_r; lra|right; field; exact N0]. }
  assert (DV : forall i, (i < 3)%nat -> is_finite (vfun (v3_div y n) i) = true /\ Rabs (vR (v3_div y n) i - / N * vR y i) <= 384 / 100 * uro * / N * Rabs (vR y i) + eta).
  { intros i Hi. assert (Ei : vfun (v3_div y n) i = Bdiv mode_NE (vfun y i) n) by (clear - Hi; destruct y as (y0&y1&y2&[]); destruct i as [ |[ |[ |i]]]; [reflexivity..|lia]).
    unfold vR at 1. rewrite Ei. destruct (LB i Hi) as [Fy _].
    assert (Eq : B2R (vfun y i) / B2R n = / N * vR y i * (1 + g)) by (unfold Rdiv; rewrite Eg; unfold vR; ring).
    pose proof (comp_nrm 3 (vR y) i Hi) as Cy.
    assert (Bq : Rabs (B2R (vfun y i) / B2R n) <= 101 / 100 * (6 * V + G * / N)).
    { rewrite Eq, Rabs_mult, (Rabs_mult (/ N)), (Rabs_pos_eq (/ N)) by lra. rewrite Rmult_comm. apply Rmult_le_compat; try apply Rabs_pos.
      - apply Rmult_le_pos; [lra|apply Rabs_pos].
      - eapply Rle_trans; [apply Rabs_triang|rewrite Rabs_R1; lra].
      - rewrite Rmult_comm. eapply Rle_trans; [ |exact YN]. apply Rmult_le_compat_r; lra. }
    assert (NZn : B2R n <> 0) by lra.
    destruct (div_big Hp11 He4 (vfun y i) n Fy NZn ltac:(rewrite BE; lra)) as (Fd & ee & h & Lee & Lh & Ed). split; [exact Fd| ]. rewrite Ed, Eq.
    replace (/ N * vR y i * (1 + g) * (1 + ee) + h - / N * vR y i) with (/ N * (g + ee * (1 + g)) * vR y i + h) by ring. eapply Rle_trans; [apply Rabs_triang| ]. apply Rplus_le_compat; [ |exact Lh].
    rewrite Rabs_mult. apply Rmult_le_compat_r; [apply Rabs_pos| ]. rewrite Rabs_mult, (Rabs_pos_eq (/ N)), Rmult_comm by lra. apply Rmult_le_compat_r; [lra| ].
    eapply Rle_trans; [apply Rabs_triang| ]. rewrite Rabs_mult.
    assert (Rabs (1 + g) <= 1 + 283 / 100 * uro) by (eapply Rle_trans; [apply Rabs_triang|rewrite Rabs_R1; lra]).
    assert (Rabs ee * Rabs (1 + g) <= uro * (1 + 283 / 100 * uro)) by (apply Rmult_le_compat; try apply Rabs_pos; assumption). assert (uro * uro <= / 2048 * uro) by (apply Rmult_le_compat_r; lra). lra. }
  apply c97_from_rotation; [exact SR|exact C3'|intros i Hi; apply (DV i Hi)| ].
  assert (Ex : forall i, (i < 3)%nat -> vfun (m33_mul_v (left_jacobian a N) x) i = / N * ap (jacR a N) (vR v) i).
  { intros i Hi. pose proof (jac_exact a x N i Hi N0) as Q. replace (ap (jacR a N) (vfun x) i) with (ap (jacR a N) (vR v) i) in Q by (unfold ap, vR; reflexivity). rewrite Q. field. exact N0. }
  apply Rle_trans with (nrm 3 (fun i => (vR (v3_div y n) i - / N * vR y i) + / N * (vR y i - ap (jacR a N) (vR v) i))).
  { apply Req_le. unfold nrm, sq_sum. f_equal. apply sumn_ext. intros i Hi. rewrite (Ex i Hi). unfold vR. lazy [mul R_Num]. ring. }
  eapply Rle_trans; [apply nrm_plus| ]. rewrite nrm_scal, (Rabs_pos_eq (/ N)) by lra.
  assert (Z1 : nrm 3 (fun i => vR (v3_div y n) i - / N * vR y i) <= 384 / 100 * uro * (6 * V + G * / N) + 2 * eta).
  { eapply Rle_trans; [apply (nrm_mono 3 _ (fun i => 384 / 100 * uro * / N * Rabs (vR y i) + eta)); intros k Hk; apply (DV k Hk)| ].
    eapply Rle_trans; [apply (nrm_plus 3 (fun i => 384 / 100 * uro * / N * Rabs (vR y i)) (fun _ => eta))| ].
    assert (A2 : nrm 3 (fun _ => eta) <= 2 * eta) by (apply nrm_le; [lra| ]; unfold sq_sum; lazy [sumn add mul zero R_Num]; nra).
    rewrite (nrm_scal 3 (384 / 100 * uro * / N) (fun i => Rabs (vR y i))), (Rabs_pos_eq (384 / 100 * uro * / N)) by (apply Rmult_le_pos; lra).
    replace (nrm 3 (fun i => Rabs (vR y i))) with (nrm 3 (vR y)) by (unfold nrm, sq_sum; f_equal; lazy [sumn add mul zero R_Num]; rewrite <- !Rabs_mult; rewrite !Rabs_pos_eq by nra; reflexivity).
    assert (384 / 100 * uro * (nrm 3 (vR y) * / N) <= 384 / 100 * uro * (6 * V + G * / N)) by (apply Rmult_le_compat_l; lra). lra. }
  assert (Z2 : / N * nrm 3 (fun i => vR y i - ap (jacR a N) (vR v) i) <= G * / N) by (rewrite Rmult_comm; apply Rmult_le_compat_r; lra).
  assert (UV : 0 <= uro * V) by (apply Rmult_le_pos; lra).
  assert (GF : (384 / 100 * uro + 1) * G <= (3 * e + 480 * uro) * V + 8 * eta).
  { assert (H1 : (384 / 100 * uro + 1) * G <= (1002 / 1000) * G) by (apply Rmult_le_compat_r; lra). eapply Rle_trans; [exact H1| ]. unfold G. assert (0 <= e * V) by (apply Rmult_le_pos; lra). lra. }
  assert (GF' : (384 / 100 * uro + 1) * G * / N <= ((3 * e + 480 * uro) * V + 8 * eta) * / N) by (apply Rmult_le_compat_r; lra).
  unfold Rdiv at 1. lra.
Qed.

(** ** turns taken for translations *)
Lemma c104_translation_refuted : forall w v : V3 fl, nearly_zero (v3_norm2 w) = true ->
  exists m : M44 fl, matrix_exponential6 (twist_to_se3 (tw w v)) = Ok m /\ forall E D (A : M44 R), SE3 A -> closeH E D m A -> 4 / 10 <= E.
Proof.
  intros w v NZ. eexists. split.
  - unfold matrix_exponential6. replace (se3_get_parts (twist_to_se3 (tw w v))) with (skew_from_vec w, v) by (destruct w as (w0&w1&w2&[]), v as (v0&v1&v2&[]); reflexivity).
    cbv beta iota zeta. replace (skew_to_vec (skew_from_vec w)) with w by (destruct w as (v0&v1&v2&[]); reflexivity). rewrite NZ. reflexivity.
  - intros E D A [SA _] C. destruct (closeH_parts _ _ _ _ C) as (E0 & _ & C1 & _). clear C.
    assert (ER : forall i j, (i < 3)%nat -> (j < 3)%nat -> mfun (rot_of A) i j = mfun A i j) by (intros i j Hi Hj; ij i j Hi Hj; reflexivity).
    pose proof (SO3_orth _ SA) as [_ G]. pose proof (G 0%nat 0%nat ltac:(lia) ltac:(lia)) as G0. unfold gram, tr, dlt in G0. cbn [Nat.eqb] in G0. rewrite !ER in G0 by lia.
    match type of C1 with dst (hR ?M) _ <= _ => set (m := M) in * end.
    assert (F : forall j, (j < 3)%nat -> Rabs (hR m 0 j - mfun A 0 j) <= E) by (intros j Hj; eapply Rle_trans; [apply (fnorm_entry (fun i j => hR m i j - mfun A i j) 0 j ltac:(lia) Hj)|exact C1]).
    assert (N1 : nrm 3 (fun j => hR m 0 j - mfun A 0%nat j) <= E).
    { eapply Rle_trans; [ |exact C1]. apply nrm_le; [apply dst_pos| ]. unfold dst. rewrite fnorm_fro.
      assert (Q : forall X, sq_sum 3 (X 0%nat) <= fro2 X) by (intros X; unfold fro2, sq_sum; lazy [sumn add mul zero R_Num]; nra).
      exact (Q (fun i j => hR m i j - mfun A i j)). }
    pose proof (nrm_diff 3 (fun j => hR m 0 j) (fun j => mfun A 0%nat j)) as ND. cbv beta in ND. apply Rabs_le_inv in ND.
    destruct (one_val (prec := prec) (emax := emax)) as [_ V1].
    assert (NA : nrm 3 (fun j => mfun A 0%nat j) <= 1) by (apply nrm_le; [lra| ]; unfold sq_sum; lazy [sumn add mul zero R_Num]; rewrite Rmult_1_r, Rplus_0_l; right; exact G0).
    assert (NM : 14 / 10 <= nrm 3 (fun j => hR m 0 j)).
    { pose proof (nrm_sq 3 (fun j => hR m 0 j)) as Q. pose proof (nrm_pos 3 (fun j => hR m 0 j)). unfold sq_sum in Q. lazy [sumn add mul zero R_Num] in Q.
      change (hR m 0 0) with (B2R (one : fl)) in Q. change (hR m 0 1) with (B2R (zero : fl)) in Q. change (hR m 0 2) with (B2R (one : fl)) in Q. change (B2R (zero : fl)) with 0 in Q. rewrite V1 in Q. nra. }
    lra.
Qed.
End F.

(** ** examples and the loss of accuracy for small turns *)
#[local] Existing Instance ProofsFloatAngles.prec53.
#[local] Existing Instance ProofsFloatAngles.emax1024.
#[local] Notation f64 := (binary_float 53 1024).

(** 2^-27 *)
Definition p27 : f64 := binary_normalize 53 1024 _ _ mode_NE 1 (-27) false.
Lemma p27_val : B2R p27 = bpow radix2 (-27).
Proof. assert (X : B2SF p27 = SpecFloat.S754_finite false 4503599627370496 (-79)) by (vm_compute; reflexivity). rewrite (B2R_of_SF _ _ _ _ X). cbn. lra. Qed.

Lemma c104_small_refuted : forall O : FOracle f64, fcos p27 = one -> fsin p27 = p27 ->
  let w := [| p27; zero; zero |] : V3 f64 in let v := [| zero; one; zero |] : V3 f64 in
  norm_ok w /\ nearly_zero (v3_norm2 w) = false /\
  exists m, matrix_exponential6 (twist_to_se3 (tw w v)) = Ok m /\
  forall E D (A : M44 R), is_mexp 4 (mfun (twist_to_se3 (tw [| B2R (vfun w 0); B2R (vfun w 1); B2R (vfun w 2) |] [| B2R (vfun v 0); B2R (vfun v 1); B2R (vfun v 2) |]))) (mfun A) ->
  closeH E D m A -> 1000000 * FloatFacts.uro (prec := 53) <= D.
Proof.
  intros O Cw Sw w v.
  assert (Nw : v3_norm2 w = p27) by (apply B2SF_inj; vm_compute; reflexivity).
  assert (Nv : norm_ok w).
  { split; [vm_compute; reflexivity| ]. rewrite Nw, p27_val. unfold FloatFacts.eta, FloatFacts.uro.
    pose proof (bpow_le radix2 (3 - 1024 - 53) (-150) ltac:(lia)) as L. set (b := bpow radix2 (3 - 1024 - 53)) in *. clearbody b. cbn in L |- *. lra. }
  assert (NZ : nearly_zero (v3_norm2 w) = false) by (vm_compute; reflexivity).
  split; [exact Nv|split; [exact NZ| ]]. destruct (exp6_eq (prec := 53) (emax := 1024) ltac:(lia) ltac:(lia) w v Nv NZ) as [_ E6]. cbv zeta in E6. rewrite Nw, Cw, Sw in E6.
  eexists. split; [exact E6| ]. intros E D A HA (_ & _ & _ & C).
  assert (Z : mfun (homogeneous_from_rotation (rod_fl (m33_div (skew_from_vec w) p27) p27 one) (v3_div (m33_mul_v (jac_fl (m33_div (skew_from_vec w) p27) p27 p27 one) v) p27)) 2 3 = zero) by (apply B2SF_inj; vm_compute; reflexivity).
  set (m := homogeneous_from_rotation _ _) in *. clearbody m.
  set (t := bpow radix2 (-27)). assert (t0 : 0 < t) by apply bpow_gt_0. set (ex := [| 1; 0; 0 |] : V3 R). set (ey := [| 0; 1; 0 |] : V3 R).
  assert (Ue : v3_dot ex ex = 1) by (change (1 * 1 + 0 * 0 + 0 * 0 = 1); ring).
  assert (V1 : B2R (one : f64) = 1) by apply Bone_correct.
  assert (Ew : [| B2R (vfun w 0); B2R (vfun w 1); B2R (vfun w 2) |] = v3_scale ex t).
  { change ([| B2R p27; 0; 0 |] = [| 1 * t; 0 * t; 0 * t |]). rewrite p27_val, Rmult_1_l, Rmult_0_l. reflexivity. }
  assert (Ev : [| B2R (vfun v 0); B2R (vfun v 1); B2R (vfun v 2) |] = ey) by (change ([| 0; B2R (one : f64); 0 |] = ey); rewrite V1; reflexivity).
  rewrite Ew, Ev in HA. pose proof (is_mexp_unique _ _ _ _ HA (mexp_twist ex ey t Ue ltac:(lra)) 2%nat 3%nat ltac:(lia) ltac:(lia)) as Q. clear HA.
  assert (Q' : mfun A 2 3 = (1 - cos t) / t).
  { rewrite Q. unfold left_jacobian. generalize (cos t) (sin t). clear - t0. clearbody t. intros c s.
    lazy -[Rplus Rmult Ropp Rminus Rinv Rdiv rodrigues]. unfold Rdiv. ring. }
  assert (L : t / 4 <= mfun A 2 3).
  { rewrite Q'. replace t with (2 * (t / 2)) at 2 by field. rewrite cos_2a_sin. destruct (small_trig (t / 2) ltac:(lra)) as [_ B]. apply Rabs_le_inv in B.
    assert (T1 : t <= / 100) by (unfold t; cbn; lra). set (h := t / 2) in *. assert (h * (h * h / 2) <= h * (/ 10)) by (apply Rmult_le_compat_l; [unfold h; lra|unfold h; nra]).
    assert (SS : (9 / 10 * h) * (9 / 10 * h) <= sin h * sin h) by (apply Rmult_le_compat; unfold h in *; lra).
    apply Rmult_le_reg_r with t; [exact t0| ]. unfold Rdiv at 2. rewrite Rmult_assoc, Rinv_l, Rmult_1_r by lra. unfold h in *. nra. }
  assert (K : Rabs (B2R (mfun m 2 3) - mfun A 2 3) <= D).
  { eapply Rle_trans; [ |exact C]. pose proof (comp_nrm 3 (fun i => B2R (mfun m i 3) - mfun A i 3) 2 ltac:(lia)) as K. cbv beta in K. eapply Rle_trans; [exact K| ]. apply Req_le. unfold nrm, sq_sum. f_equal. lazy [sumn add mul zero R_Num]. ring. }
  rewrite Z in K. change (B2R (zero : f64)) with 0 in K. apply Rabs_le_inv in K.
  assert (1000000 * FloatFacts.uro (prec := 53) <= t / 4) by (unfold FloatFacts.uro, t; cbn; lra). lra.
Qed.

(** correctly rounded sine and cosine of 2^-27 *)
Lemma near_pow k r : (-100 <= k <= 0)%Z -> bpow radix2 k * (1 - bpow radix2 (-55)) <= r <= bpow radix2 k -> is_finite (near r) = true /\ B2R (near r) = bpow radix2 k.
Proof.
  intros Hk Hr. set (fe := FLT_exp (3 - 1024 - 53) 53). assert (VE : Valid_exp fe) by (apply FLT_exp_valid; exact ProofsFloatAngles.prec53).
  pose proof (bpow_gt_0 radix2 k) as k0. pose proof (bpow_le radix2 k 0 ltac:(lia)) as k1. change (bpow radix2 0) with 1 in k1.
  assert (b55 : bpow radix2 (-55) <= / 100) by (cbn; lra). pose proof (bpow_gt_0 radix2 (-55)) as p55.
  assert (Gk : generic_format radix2 fe (bpow radix2 k)) by (apply generic_format_bpow; unfold fe, FLT_exp; lia).
  assert (RR : round radix2 fe ZnearestE r = bpow radix2 k).
  { pose proof (round_N_pt radix2 fe (fun x => negb (Z.even x)) r) as [G H]. set (r' := round radix2 fe ZnearestE r) in *. specialize (H _ Gk).
    assert (Hb : Rabs (bpow radix2 k - r) <= bpow radix2 k * bpow radix2 (-55)) by (apply Rabs_le; lra).
    assert (Hc := Rle_trans _ _ _ H Hb). apply Rabs_le_inv in Hc.
    assert (Le : r' <= bpow radix2 k). { unfold r'. apply round_le_generic; [exact VE|apply valid_rnd_N|exact Gk|lra]. }
    destruct (Rle_lt_or_eq_dec _ _ Le) as [Lt|Eq]; [exfalso|exact Eq].
    pose proof (pred_ge_gt radix2 fe r' (bpow radix2 k) G Gk Lt) as Pr.
    rewrite pred_bpow in Pr. replace (fe k) with (k + -53)%Z in Pr by (unfold fe, FLT_exp; lia). rewrite bpow_plus in Pr.
    assert (bpow radix2 k * (2 * bpow radix2 (-55)) < bpow radix2 k * bpow radix2 (-53)) by (apply Rmult_lt_compat_l; [exact k0|cbn; lra]). lra. }
  unfold near. cbv zeta. fold fe. rewrite RR. set (r' := bpow radix2 k) in *.
  pose proof (binary_normalize_correct 53 1024 ProofsFloatAngles.prec53 ProofsFloatAngles.emax1024 mode_NE (Ztrunc (scaled_mantissa radix2 fe r')) (cexp radix2 fe r') false) as C. cbn [round_mode] in C. cbv zeta in C.
  assert (E : F2R (Defs.Float radix2 (Ztrunc (scaled_mantissa radix2 fe r')) (cexp radix2 fe r')) = r') by (symmetry; exact Gk). rewrite E in C. rewrite fe_eq in C. fold fe in C.
  rewrite (round_generic radix2 fe ZnearestE r' Gk) in C. rewrite Rlt_bool_true in C.
  - destruct C as (C1 & C2 & _). split; [exact C2|exact C1].
  - rewrite Rabs_pos_eq by (left; exact k0). apply bpow_lt. lia.
Qed.
Lemma near_float k r (x : f64) : (-100 <= k <= 0)%Z -> bpow radix2 k * (1 - bpow radix2 (-55)) <= r <= bpow radix2 k -> is_finite x = true -> B2R x = bpow radix2 k -> near r = x.
Proof.
  intros Hk Hr Fx Vx. destruct (near_pow k r Hk Hr) as [F V]. pose proof (bpow_gt_0 radix2 k) as k0.
  assert (ST : forall z : f64, is_finite z = true -> B2R z = bpow radix2 k -> is_finite_strict z = true) by (intros z Fz Vz; destruct z; try discriminate; try reflexivity; cbn [B2R] in Vz; lra).
  apply B2R_inj; [apply ST; assumption|apply ST; assumption|congruence].
Qed.

#[local] Existing Instance crO.
Example C104_case_small : fcos p27 = one /\ fsin p27 = p27.
Proof.
  destruct (small_trig (B2R p27)) as [C S]; [rewrite p27_val; apply bpow_ge_0| ]. rewrite p27_val in C, S. apply Rabs_le_inv in S.
  assert (SL : sin (bpow radix2 (-27)) <= bpow radix2 (-27)) by (pose proof (sin_abs (bpow radix2 (-27))) as A; rewrite (Rabs_pos_eq (bpow radix2 (-27))) in A by apply bpow_ge_0; apply Rabs_le_inv in A; lra).
  split.
  - change (near (cos (B2R p27)) = one). rewrite p27_val. apply (near_float 0); [lia| |reflexivity|apply Bone_correct]. cbn [bpow] in C |- *. cbn in C |- *. lra.
  - change (near (sin (B2R p27)) = p27). rewrite p27_val. apply (near_float (-27)); [lia| |vm_compute; reflexivity|apply p27_val]. split; [ |exact SL].
    assert (X : bpow radix2 (-27) * (1 - bpow radix2 (-55)) = bpow radix2 (-27) - bpow radix2 (-27) * (bpow radix2 (-27) * bpow radix2 (-27) / 2)) by (cbn; field). lra.
Qed.

(** a quarter of a full screw motion about the direction (1, 2, 2) *)
Example C104_case_screw : let w := [| fofZ 1; fofZ 2; fofZ 2 |] : V3 f64 in let v := [| fofZ 3; fofZ 0; fofZ (-4) |] : V3 f64 in
  exists (m : M44 f64) (A : M44 R), matrix_exponential6 (twist_to_se3 (tw w v)) = Ok m /\
  is_mexp 4 (mfun (twist_to_se3 (tw [| B2R (vfun w 0); B2R (vfun w 1); B2R (vfun w 2) |] [| B2R (vfun v 0); B2R (vfun v 1); B2R (vfun v 2) |]))) (mfun A) /\ SE3 A /\ closeH (/ 10 ^ 12) (/ 10 ^ 12) m A.
Proof.
  intros w v. pose proof uro53 as U. pose proof (uro_pos (prec := 53)) as P. pose proof (crO_trig (v3_norm2 w)) as T. destruct (v122_ok crO) as (Nv & Lv & Nz). fold w in Nv, Lv, Nz.
  assert (L5 : len3 v = 5).
  { assert (F : forall z, (Z.abs z <= 4)%Z -> B2R (fofZ z : f64) = IZR z) by (intros z Hz; apply (fofZ_int (prec := 53) (emax := 1024) z ltac:(cbn; lia))).
    unfold len3. change (vfun v 0) with (fofZ 3 : f64). change (vfun v 1) with (fofZ 0 : f64). change (vfun v 2) with (fofZ (-4) : f64). rewrite !F by lia. replace (_ + _) with (5 * 5) by ring. apply sqrt_square. lra. }
  assert (B4 : 4 <= bpow radix2 (1024 - 12)) by (change 4 with (bpow radix2 2); apply bpow_le; lia).
  destruct (c104_exponential6 (prec := 53) (emax := 1024) ltac:(lia) ltac:(lia) _ w v Nv Nz T) as (m & A & Em & Hm & SA & C); [rewrite Lv; lra|rewrite Lv; lra| |rewrite Lv, L5; lra| ].
  { intros k Hk. destruct k as [ |[ |[ |k]]]; [reflexivity..|lia]. }
  exists m, A. split; [exact Em|split; [exact Hm|split; [exact SA| ]]]. rewrite Lv, L5 in C. assert (Ht := eta_tiny (prec := 53) (emax := 1024) ltac:(lia) ltac:(lia)).
  eapply closeH_weaken; [exact C|lra|lra].
Qed.

(** a pure translation *)
Example C104_case_translation : let w := [| fofZ 0; fofZ 0; fofZ 0 |] : V3 f64 in nearly_zero (v3_norm2 w) = true.
Proof. vm_compute. reflexivity. Qed.
