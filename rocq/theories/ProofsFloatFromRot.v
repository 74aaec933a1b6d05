(** * ProofsFloatFromRot: from rotation matrices to quaternions on floats (C95) *)

From Coq Require Import List Arith ZArith Reals Bool Lra Lia.
From Flocq Require Import Core Relative Sterbenz Mult_error IEEE754.BinarySingleNaN.
From Verif Require Import Base Scalar Vec Mat2 Mat3 Mat4 Mat5 Mat6 Slices MatLoops MatOps Quat Transf DualQuat RingDet Spec LoopFacts Entries InstZ InstR RFacts LUFacts QRFacts ProofsRing ProofsQuat ProofsRot InstF FloatFacts ProofsFloat ProofsFloat2 ProofsFloatErr ProofsFloatInv ProofsFloatNorm ProofsFloatRot ProofsFloatDrift ProofsFloatDQ.
Local Open Scope R_scope.

(** components of a real quaternion *)
Definition rq (A : Quaternion R) : nat -> R := fun k => qcomp k A.

Lemma rot_exact_R (A : Quaternion R) i j : (i < 3)%nat -> (j < 3)%nat -> mfun (q_to_rotation A) i j = rot_exact (rq A) i j.
Proof.
  intros Hi Hj. destruct A as [x0 (x1&x2&x3&[]) f]. destruct i as [ |[ |[ |i]]]; [ | | |lia]; (destruct j as [ |[ |[ |j]]]; [ | | |lia]);
  lazy [rot_exact hamilton h4 h4conj comp4 e4 rq qcomp q_to_rotation mfun vfun List.nth List.map alist ix0 ix1 ix2 ahd atl acons anil fst snd q0 Quat.q q_real q_imag add sub mul one zero R_Num]; ring.
Qed.

Lemma unit_sq (A : Quaternion R) : unit_quat A -> sq_sum 4 (rq A) = 1.
Proof.
  unfold unit_quat. intros H. transitivity (q_abs2 A); [ |exact H]. clear H. destruct A as [x0 (x1&x2&x3&[]) f]. unfold sq_sum. cbn [sumn].
  lazy [rq qcomp vfun List.nth alist q0 Quat.q fst snd add mul zero R_Num q_abs2 ix0 ix1 ix2 ahd atl]. ring.
Qed.

(** over the reals: the quotient of an almost [4 a b] by an almost [2 a] *)
Lemma pair_core a b N t E : 0 <= a -> Rabs b <= 1 -> Rabs (N - 4 * (a * b)) <= E -> Rabs (t - 4 * (a * a)) <= E -> E <= / 20 -> 98 / 100 <= t ->
  Rabs (N / (2 * sqrt t) - b) <= 104 / 100 * E.
Proof.
  intros Ha Hb EN Et LE Lt. assert (S0 : 0 < sqrt t) by (apply sqrt_lt_R0; lra).
  assert (SS : sqrt t * sqrt t = t) by (apply sqrt_sqrt; lra). set (s := sqrt t) in *. clearbody s.
  assert (S1 : 98 / 100 <= s) by nra. apply Rabs_le_inv in Et. assert (A1 : 96 / 100 <= 2 * a) by nra.
  assert (D : Rabs (2 * a - s) <= 52 / 100 * E).
  { assert (X : (2 * a - s) * (2 * a + s) = 4 * (a * a) - t) by (rewrite <- SS; ring).
    assert (Y : Rabs (2 * a - s) * (2 * a + s) <= E).
    { rewrite <- (Rabs_pos_eq (2 * a + s)) by lra. rewrite <- Rabs_mult, X. apply Rabs_le. lra. }
    pose proof (Rabs_pos (2 * a - s)). nra. }
  replace (N / (2 * s) - b) with ((N - 4 * (a * b) + 2 * b * (2 * a - s)) / (2 * s)) by (field; lra).
  unfold Rdiv at 1. rewrite Rabs_mult, (Rabs_pos_eq (/ (2 * s))) by (left; apply Rinv_0_lt_compat; lra).
  apply Rmult_le_reg_r with (2 * s); [lra| ]. rewrite Rmult_assoc, Rinv_l, Rmult_1_r by lra.
  eapply Rle_trans; [apply Rabs_triang| ]. rewrite (Rabs_mult (2 * b)), (Rabs_mult 2 b), (Rabs_pos_eq 2) by lra.
  assert (E0 : 0 <= E) by (eapply Rle_trans; [apply Rabs_pos|exact EN]).
  assert (2 * Rabs b * Rabs (2 * a - s) <= 2 * 1 * (52 / 100 * E)) by (apply Rmult_le_compat; try apply Rabs_pos; try lra; pose proof (Rabs_pos b); lra).
  nra.
Qed.

Lemma quot_core P s e1 e2 h h2 u H : 0 < u <= / 2048 -> Rabs e1 <= u -> Rabs e2 <= u -> Rabs P <= 104 / 100 -> 98 / 100 <= s -> Rabs h <= H -> Rabs h2 <= H -> H <= / 1000 * u ->
  Rabs ((P * s + h) / (s * (1 + e1)) * (1 + e2) + h2 - P) <= 21 / 10 * u.
Proof.
  intros U L1 L2 LP Ls Lh Lh2 LH. apply Rabs_le_inv in L1, L2.
  assert (Q : 0 < s * (1 + e1)) by (apply Rmult_lt_0_compat; lra).
  replace ((P * s + h) / (s * (1 + e1)) * (1 + e2) + h2 - P) with (P * ((e2 - e1) / (1 + e1)) + (h * ((1 + e2) / (s * (1 + e1))) + h2)) by (field; split; nra).
  assert (Z1 : Rabs ((e2 - e1) / (1 + e1)) <= 2002 / 1000 * u).
  { unfold Rdiv. rewrite Rabs_mult, (Rabs_pos_eq (/ (1 + e1))) by (left; apply Rinv_0_lt_compat; lra).
    apply Rmult_le_reg_r with (1 + e1); [lra| ]. rewrite Rmult_assoc, Rinv_l, Rmult_1_r by lra. apply Rabs_le. nra. }
  assert (Z2 : Rabs ((1 + e2) / (s * (1 + e1))) <= 11 / 10).
  { rewrite Rabs_pos_eq by (apply Rmult_le_pos; [lra|left; apply Rinv_0_lt_compat; lra]).
    apply Rmult_le_reg_r with (s * (1 + e1)); [lra| ]. unfold Rdiv. rewrite Rmult_assoc, Rinv_l, Rmult_1_r by lra. nra. }
  eapply Rle_trans; [apply Rabs_triang| ]. eapply Rle_trans; [apply Rplus_le_compat_l, Rabs_triang| ]. rewrite !(Rabs_mult P), (Rabs_mult h).
  assert (Rabs P * Rabs ((e2 - e1) / (1 + e1)) <= 104 / 100 * (2002 / 1000 * u)) by (apply Rmult_le_compat; try apply Rabs_pos; lra).
  assert (Rabs h * Rabs ((1 + e2) / (s * (1 + e1))) <= (/ 1000 * u) * (11 / 10)) by (apply Rmult_le_compat; try apply Rabs_pos; lra). lra.
Qed.

Section F.
Context {prec emax : Z} {Hp : Prec_gt_0 prec} {He : Prec_lt_emax prec emax} {O : FOracle (binary_float prec emax)}.
Notation fl := (binary_float prec emax).
Notation uro := (uro (prec := prec)).
Notation eta := (eta (prec := prec) (emax := emax)).
Hypothesis Hp11 : (11 <= prec)%Z.
Hypothesis He4 : (4 * prec <= emax)%Z.

(** ** single operations on small numbers *)
Lemma rnd_small z : Rabs z <= 100 -> Rabs (round radix2 (FLT_exp (3 - emax - prec) prec) ZnearestE z) < bpow radix2 emax.
Proof.
  intros L. eapply Rle_lt_trans; [apply (rnd_bound Hp11 He4)| ]. pose proof (uro_small Hp11) as U. pose proof (uro_pos (prec := prec)) as P.
  apply Rlt_le_trans with 2048; [nra| ]. apply (emax_big Hp11 He4).
Qed.

Lemma add_ok (x y : fl) : is_finite x = true -> is_finite y = true -> Rabs (B2R x + B2R y) <= 100 ->
  is_finite (add x y) = true /\ Rabs (B2R (add x y) - (B2R x + B2R y)) <= uro * Rabs (B2R x + B2R y).
Proof.
  intros Fx Fy L. pose proof (Bplus_correct prec emax Hp He mode_NE x y Fx Fy) as C. cbn [round_mode] in C. rewrite fe_eq in C.
  rewrite Rlt_bool_true in C by (apply rnd_small, L). destruct C as (_ & F & _). split; [exact F|exact (plus_rel x y F)].
Qed.

Lemma sub_ok (x y : fl) : is_finite x = true -> is_finite y = true -> Rabs (B2R x - B2R y) <= 100 ->
  is_finite (sub x y) = true /\ Rabs (B2R (sub x y) - (B2R x - B2R y)) <= uro * Rabs (B2R x - B2R y).
Proof.
  intros Fx Fy L. assert (E : sub x y = add x (Bopp y)) by (apply Bminus_plus). rewrite E.
  pose proof (add_ok x (Bopp y) Fx) as A. rewrite is_finite_Bopp, B2R_Bopp in A. exact (A Fy L).
Qed.

Lemma comp_ok (N t : fl) a b E : is_finite N = true -> is_finite t = true -> 0 <= a -> Rabs b <= 1 ->
  Rabs (B2R N - 4 * (a * b)) <= E -> Rabs (B2R t - 4 * (a * a)) <= E -> E <= / 26 -> 98 / 100 <= B2R t ->
  let r := div (mul N (div one (add one one))) (fsqrt t) in
  is_finite r = true /\ Rabs (B2R r - b) <= 104 / 100 * E + 21 / 10 * uro.
Proof.
  intros FN Ft Ha Hb EN Et LE Lt. cbv zeta. pose proof (pair_core a b (B2R N) (B2R t) E Ha Hb EN Et ltac:(lra) Lt) as PC.
  pose proof (uro_small Hp11) as U. pose proof (uro_pos (prec := prec)) as P. pose proof (eta_tiny Hp11 He4) as T.
  destruct (hlf_val Hp11 He4 N FN) as (FM & EM & _). set (M := mul N (div one (add one one))) in *.
  set (s := fsqrt t). destruct (sqrt_round t) as (e1 & L1 & Es). assert (Es' : B2R s = sqrt (B2R t) * (1 + e1)) by exact Es. clear Es.
  assert (S0 : 0 < sqrt (B2R t)) by (apply sqrt_lt_R0; lra).
  assert (SS : sqrt (B2R t) * sqrt (B2R t) = B2R t) by (apply sqrt_sqrt; lra).
  set (q := sqrt (B2R t)) in *. assert (S1 : 98 / 100 <= q) by nra.
  assert (Q0 : 97 / 100 <= B2R s) by (rewrite Es'; apply Rabs_le_inv in L1; nra).
  assert (Ns : B2R s <> 0) by lra.
  pose (h := B2R M - / 2 * B2R N). assert (Lh : Rabs h <= eta) by exact EM.
  set (Pq := B2R N / (2 * q)) in *.
  assert (LP : Rabs Pq <= 104 / 100).
  { replace Pq with ((Pq - b) + b) by ring. eapply Rle_trans; [apply Rabs_triang| ]. lra. }
  assert (MV : B2R M = Pq * q + h) by (unfold h, Pq; field; lra).
  assert (BM : Rabs (B2R M / B2R s) <= 100).
  { rewrite MV. unfold Rdiv. rewrite Rabs_mult, (Rabs_pos_eq (/ B2R s)) by (left; apply Rinv_0_lt_compat; lra).
    apply Rmult_le_reg_r with (B2R s); [lra| ]. rewrite Rmult_assoc, Rinv_l, Rmult_1_r by lra.
    eapply Rle_trans; [apply Rabs_triang| ]. rewrite Rabs_mult, (Rabs_pos_eq q) by lra.
    assert (Rabs Pq * q <= 104 / 100 * q) by (apply Rmult_le_compat_r; lra). rewrite Es'. apply Rabs_le_inv in L1. nra. }
  pose proof (Bdiv_correct prec emax Hp He mode_NE M s Ns) as C. cbn [round_mode] in C. rewrite fe_eq in C.
  rewrite Rlt_bool_true in C by (apply rnd_small, BM). destruct C as (C1 & C2 & _). rewrite FM in C2.
  split; [exact C2| ]. assert (C3 : B2R (div M s) = round radix2 (FLT_exp (3 - emax - prec) prec) ZnearestE (B2R M / B2R s)) by exact C1. rewrite C3.
  destruct (rnd_error (prec := prec) (emax := emax) (B2R M / B2R s)) as (e2 & h2 & L2 & Lh2 & ->). rewrite MV, Es'.
  pose proof (quot_core Pq q e1 e2 h h2 uro eta ltac:(split; [exact P|exact U]) L1 L2 LP S1 Lh Lh2 ltac:(lra)) as QC.
  match goal with |- Rabs (?z - b) <= _ => replace (z - b) with ((z - Pq) + (Pq - b)) by ring end.
  eapply Rle_trans; [apply Rabs_triang| ]. lra.
Qed.


Lemma tsum_ok (x y z : fl) : is_finite x = true -> is_finite y = true -> is_finite z = true ->
  Rabs (B2R x) <= 101 / 100 -> Rabs (B2R y) <= 101 / 100 -> Rabs (B2R z) <= 101 / 100 ->
  let t := add (add (add one x) y) z in is_finite t = true /\ Rabs (B2R t - (1 + B2R x + B2R y + B2R z)) <= 91 / 10 * uro.
Proof.
  intros Fx Fy Fz Lx Ly Lz. cbv zeta. pose proof (uro_small Hp11) as U. pose proof (uro_pos (prec := prec)) as P.
  assert (F1 : is_finite (one : fl) = true) by apply is_finite_Bone. assert (V1 : B2R (one : fl) = 1) by apply Bone_correct.
  apply Rabs_le_inv in Lx, Ly, Lz.
  assert (B1 : Rabs (B2R (one : fl) + B2R x) <= 201 / 100) by (rewrite V1; apply Rabs_le; lra).
  destruct (add_ok one x F1 Fx ltac:(lra)) as [F2 E2]. rewrite V1 in E2, B1. set (s1 := add one x) in *.
  assert (E2' : Rabs (B2R s1 - (1 + B2R x)) <= 201 / 100 * uro) by nra. clear E2. apply Rabs_le_inv in E2'. apply Rabs_le_inv in B1.
  assert (B2 : Rabs (B2R s1 + B2R y) <= 303 / 100) by (apply Rabs_le; lra).
  destruct (add_ok s1 y F2 Fy ltac:(lra)) as [F3 E3]. set (s2 := add s1 y) in *.
  assert (E3' : Rabs (B2R s2 - (B2R s1 + B2R y)) <= 303 / 100 * uro) by nra. clear E3. apply Rabs_le_inv in E3', B2.
  assert (B3 : Rabs (B2R s2 + B2R z) <= 405 / 100) by (apply Rabs_le; lra).
  destruct (add_ok s2 z F3 Fz ltac:(lra)) as [F4 E4]. set (s3 := add s2 z) in *.
  assert (E4' : Rabs (B2R s3 - (B2R s2 + B2R z)) <= 405 / 100 * uro) by nra. clear E4. apply Rabs_le_inv in E4'.
  split; [exact F4| ]. apply Rabs_le. lra.
Qed.

Lemma pair_ok (x y : fl) z e : is_finite x = true -> is_finite y = true -> Rabs (B2R x) <= 101 / 100 -> Rabs (B2R y) <= 101 / 100 -> Rabs (B2R x + B2R y - z) <= e ->
  is_finite (add x y) = true /\ Rabs (B2R (add x y) - z) <= e + 203 / 100 * uro.
Proof.
  intros Fx Fy Lx Ly E. pose proof (uro_pos (prec := prec)) as P. apply Rabs_le_inv in Lx, Ly. assert (B : Rabs (B2R x + B2R y) <= 202 / 100) by (apply Rabs_le; lra).
  destruct (add_ok x y Fx Fy ltac:(lra)) as [F E2]. split; [exact F| ].
  replace (B2R (add x y) - z) with ((B2R (add x y) - (B2R x + B2R y)) + (B2R x + B2R y - z)) by ring. eapply Rle_trans; [apply Rabs_triang| ]. nra.
Qed.

Lemma branch_ok (Nq : Quaternion fl) (t : fl) (A : nat -> R) p E : (p < 4)%nat -> 0 <= A p -> sq_sum 4 A = 1 ->
  (forall k, (k < 4)%nat -> is_finite (qcomp k Nq) = true /\ Rabs (B2R (qcomp k Nq) - 4 * (A p * A k)) <= E) ->
  is_finite t = true -> Rabs (B2R t - 4 * (A p * A p)) <= E -> E <= / 26 -> 98 / 100 <= B2R t ->
  forall k, (k < 4)%nat -> let r := q_div_s (q_scale Nq (div one (add one one))) (fsqrt t) in
  is_finite (qcomp k r) = true /\ Rabs (qR r k - A k) <= 104 / 100 * E + 21 / 10 * uro.
Proof.
  intros Hp4 Ap U HN Ft Et LE Lt k Hk. cbv zeta.
  assert (Bk : Rabs (A k) <= 1).
  { eapply Rle_trans; [exact (comp_nrm 4 A k Hk)| ]. unfold nrm. rewrite U, sqrt_1. lra. }
  destruct (HN k Hk) as [FN EN]. pose proof (comp_ok (qcomp k Nq) t (A p) (A k) E FN Ft Ap Bk EN Et LE Lt) as C. cbv zeta in C.
  assert (Q : qcomp k (q_div_s (q_scale Nq (div one (add one one))) (fsqrt t)) = div (mul (qcomp k Nq) (div one (add one one))) (fsqrt t)).
  { destruct Nq as [x0 (x1&x2&x3&[]) f]. destruct k as [ |[ |[ |[ |k]]]]; [reflexivity..|lia]. }
  unfold qR. rewrite Q. exact C.
Qed.

Lemma sign_pick (r : M33 R) p : SO3 r -> (p < 4)%nat -> exists A : Quaternion R, unit_quat A /\ q_to_rotation A = r /\ 0 <= rq A p.
Proof.
  intros S Hp4. destruct (c28_to_rotation_surjective (K := f64_consts) r S) as (A & U & E). destruct (Rle_or_lt 0 (rq A p)) as [L|L].
  - exists A. auto.
  - exists (q_neg A). split; [ |split].
    + unfold unit_quat in *. rewrite <- U. destruct A as [x0 (x1&x2&x3&[]) f]. lazy. ring.
    + rewrite <- E. destruct A as [x0 (x1&x2&x3&[]) f]. apply (mfun_ext 3). intros i j Hi Hj. rewrite !rot_exact_R by assumption. destruct i as [ |[ |[ |i]]]; [ | | |lia]; (destruct j as [ |[ |[ |j]]]; [ | | |lia]);
      lazy [rot_exact hamilton h4 h4conj comp4 e4 rq qcomp q_neg q_new v3_neg vfun List.nth List.map alist ix0 ix1 ix2 ahd atl acons anil fst snd q0 Quat.q q_real q_imag add sub mul one zero R_Num neg R_Signed]; ring.
    + assert (X : rq (q_neg A) p = - rq A p) by (destruct A as [x0 (x1&x2&x3&[]) f]; destruct p as [ |[ |[ |[ |p]]]]; [reflexivity..|lia]). rewrite X. lra.
Qed.

Lemma ltb_R (x y : fl) : is_finite x = true -> is_finite y = true -> if ltb x y then B2R x < B2R y else B2R y <= B2R x.
Proof. intros Fx Fy. change (ltb x y) with (Bltb x y). rewrite Bltb_correct by assumption. destruct (Rlt_bool_spec (B2R x) (B2R y)); lra. Qed.

Lemma c95_from_rotation : forall (m : M33 fl) (r : M33 R) e, SO3 r -> e <= / 100 ->
  (forall i j, (i < 3)%nat -> (j < 3)%nat -> is_finite (mfun m i j) = true /\ Rabs (B2R (mfun m i j) - mfun r i j) <= e) ->
  exists A : Quaternion R, unit_quat A /\ q_to_rotation A = r /\
  forall k, (k < 4)%nat -> is_finite (qcomp k (q_from_rotation m)) = true /\ Rabs (B2R (qcomp k (q_from_rotation m)) - qcomp k A) <= 312 / 100 * e + 116 / 10 * uro.
Proof.
  intros m r e S Le H. pose proof (uro_small Hp11) as U. pose proof (uro_pos (prec := prec)) as P.
  assert (E0 : 0 <= e) by (eapply Rle_trans; [apply Rabs_pos|apply (H 0 0)%nat; lia]).
  (* every entry is at most 1 + e *)
  assert (HB : forall i j, (i < 3)%nat -> (j < 3)%nat -> Rabs (B2R (mfun m i j)) <= 101 / 100).
  { intros i j Hi Hj. destruct (H i j Hi Hj) as [_ E]. destruct (c28_to_rotation_surjective (K := f64_consts) r S) as (A & UA & EA).
    assert (B : Rabs (mfun r i j) <= 1) by (rewrite <- EA, rot_exact_R by assumption; eapply Rle_trans; [apply rot_bound; assumption|rewrite (unit_sq A UA); lra]).
    replace (B2R (mfun m i j)) with ((B2R (mfun m i j) - mfun r i j) + mfun r i j) by ring. eapply Rle_trans; [apply Rabs_triang|lra]. }
  assert (K : exists p A, (p < 4)%nat /\ unit_quat A /\ q_to_rotation A = r /\ 0 <= rq A p /\ exists Nq t, q_from_rotation m = q_div_s (q_scale Nq (div one (add one one))) (fsqrt t) /\
    (forall k, (k < 4)%nat -> is_finite (qcomp k Nq) = true /\ Rabs (B2R (qcomp k Nq) - 4 * (rq A p * rq A k)) <= 3 * e + 91 / 10 * uro) /\
    is_finite t = true /\ Rabs (B2R t - 4 * (rq A p * rq A p)) <= 3 * e + 91 / 10 * uro /\ 98 / 100 <= B2R t).
  { assert (X : forall i j, (i < 3)%nat -> (j < 3)%nat -> is_finite (mfun m i j) = true /\ Rabs (B2R (mfun m i j)) <= 101 / 100 /\ Rabs (B2R (mfun m i j) - mfun r i j) <= e)
      by (intros i j Hi Hj; split; [apply H; assumption|split; [apply HB; assumption|apply H; assumption]]).
    clear H HB.
    pose proof (X 0 0 ltac:(lia) ltac:(lia))%nat as (F00 & B00 & E00). pose proof (X 0 1 ltac:(lia) ltac:(lia))%nat as (F01 & B01 & E01). pose proof (X 0 2 ltac:(lia) ltac:(lia))%nat as (F02 & B02 & E02).
    pose proof (X 1 0 ltac:(lia) ltac:(lia))%nat as (F10 & B10 & E10). pose proof (X 1 1 ltac:(lia) ltac:(lia))%nat as (F11 & B11 & E11). pose proof (X 1 2 ltac:(lia) ltac:(lia))%nat as (F12 & B12 & E12).
    pose proof (X 2 0 ltac:(lia) ltac:(lia))%nat as (F20 & B20 & E20). pose proof (X 2 1 ltac:(lia) ltac:(lia))%nat as (F21 & B21 & E21). pose proof (X 2 2 ltac:(lia) ltac:(lia))%nat as (F22 & B22 & E22).
    clear X. destruct m as ((m00&m01&m02&[])&(m10&m11&m12&[])&(m20&m21&m22&[])&[]).
    change (is_finite m00 = true) in F00. change (is_finite m01 = true) in F01. change (is_finite m02 = true) in F02.
    change (is_finite m10 = true) in F10. change (is_finite m11 = true) in F11. change (is_finite m12 = true) in F12.
    change (is_finite m20 = true) in F20. change (is_finite m21 = true) in F21. change (is_finite m22 = true) in F22.
    change (Rabs (B2R m00) <= 101 / 100) in B00. change (Rabs (B2R m01) <= 101 / 100) in B01. change (Rabs (B2R m02) <= 101 / 100) in B02.
    change (Rabs (B2R m10) <= 101 / 100) in B10. change (Rabs (B2R m11) <= 101 / 100) in B11. change (Rabs (B2R m12) <= 101 / 100) in B12.
    change (Rabs (B2R m20) <= 101 / 100) in B20. change (Rabs (B2R m21) <= 101 / 100) in B21. change (Rabs (B2R m22) <= 101 / 100) in B22.
    change (Rabs (B2R m00 - mfun r 0 0) <= e) in E00. change (Rabs (B2R m01 - mfun r 0 1) <= e) in E01. change (Rabs (B2R m02 - mfun r 0 2) <= e) in E02.
    change (Rabs (B2R m10 - mfun r 1 0) <= e) in E10. change (Rabs (B2R m11 - mfun r 1 1) <= e) in E11. change (Rabs (B2R m12 - mfun r 1 2) <= e) in E12.
    change (Rabs (B2R m20 - mfun r 2 0) <= e) in E20. change (Rabs (B2R m21 - mfun r 2 1) <= e) in E21. change (Rabs (B2R m22 - mfun r 2 2) <= e) in E22.
    apply Rabs_le_inv in E00, E01, E02, E10, E11, E12, E20, E21, E22.
    set (m := [| [| m00; m01; m02 |]; [| m10; m11; m12 |]; [| m20; m21; m22 |] |] : M33 fl).
    pose (t1 := sub (sub (add one m00) m11) m22 : fl). pose (t2 := sub (add (sub one m00) m11) m22 : fl). pose (t3 := add (sub (sub one m00) m11) m22 : fl). pose (t4 := add (add (add one m00) m11) m22 : fl).
    assert (EQ : q_from_rotation m =
      if ltb m22 zero then
        if ltb m11 m00 then q_div_s (q_scale (q_new_from (sub m21 m12) t1 (add m10 m01) (add m02 m20)) (div one (add one one))) (fsqrt t1)
        else q_div_s (q_scale (q_new_from (sub m02 m20) (add m10 m01) t2 (add m21 m12)) (div one (add one one))) (fsqrt t2)
      else if ltb m00 (neg m11) then q_div_s (q_scale (q_new_from (sub m10 m01) (add m02 m20) (add m21 m12) t3) (div one (add one one))) (fsqrt t3)
      else q_div_s (q_scale (q_new_from t4 (sub m21 m12) (sub m02 m20) (sub m10 m01)) (div one (add one one))) (fsqrt t4)) by reflexivity.
    assert (SB : forall x y : fl, sub x y = add x (Bopp y)) by (intros x y; apply Bminus_plus).
    assert (OP : forall x : fl, is_finite x = true -> Rabs (B2R x) <= 101 / 100 -> is_finite (Bopp x) = true /\ Rabs (B2R (Bopp x)) <= 101 / 100) by (intros x Fx Bx; rewrite is_finite_Bopp, B2R_Bopp, Rabs_Ropp; auto).
    destruct (OP m00 F00 B00) as [G00 C00]. destruct (OP m11 F11 B11) as [G11 C11]. destruct (OP m22 F22 B22) as [G22 C22].
    destruct (OP m01 F01 B01) as [G01 C01]. destruct (OP m12 F12 B12) as [G12 C12]. destruct (OP m20 F20 B20) as [G20 C20]. clear OP.
    pose proof (tsum_ok m00 (Bopp m11) (Bopp m22) F00 G11 G22 B00 C11 C22) as T1. pose proof (tsum_ok (Bopp m00) m11 (Bopp m22) G00 F11 G22 C00 B11 C22) as T2.
    pose proof (tsum_ok (Bopp m00) (Bopp m11) m22 G00 G11 F22 C00 C11 B22) as T3. pose proof (tsum_ok m00 m11 m22 F00 F11 F22 B00 B11 B22) as T4. cbv zeta in T1, T2, T3, T4.
    rewrite <- !SB in T1, T2, T3. fold t1 in T1. fold t2 in T2. fold t3 in T3. fold t4 in T4. rewrite !B2R_Bopp in T1, T2, T3. clearbody t1 t2 t3 t4.
    pose proof (ltb_R m22 zero F22 eq_refl) as L22. change (B2R (zero : fl)) with 0 in L22.
    pose proof (ltb_R m11 m00 F11 F00) as L1. pose proof (ltb_R m00 (Bopp m11) F00 G11) as L2. rewrite B2R_Bopp in L2.
    change (neg m11) with (Bopp m11 : fl) in EQ. rewrite !SB in EQ.
    destruct (ltb m22 zero); [destruct (ltb m11 m00); [exists 1%nat|exists 2%nat]|destruct (ltb m00 (Bopp m11)); [exists 3%nat|exists 0%nat]].
    all: match goal with |- exists A, (?p < 4)%nat /\ _ => destruct (sign_pick r p S ltac:(lia)) as (A & UA & RA & PA) end; exists A; (split; [lia| ]); (split; [exact UA| ]); (split; [exact RA| ]); (split; [exact PA| ]).
    all: pose proof (unit_sq A UA) as N1; unfold sq_sum in N1; cbn [sumn] in N1; lazy [add mul zero R_Num] in N1.
    all: assert (RE : forall i j, (i < 3)%nat -> (j < 3)%nat -> mfun r i j = rot_exact (rq A) i j) by (intros i j Hi Hj; rewrite <- RA; apply rot_exact_R; assumption).
    all: rewrite !RE in E00, E01, E02, E10, E11, E12, E20, E21, E22 by lia; lazy [rot_exact hamilton h4 h4conj comp4 e4 add sub mul one zero R_Num] in E00, E01, E02, E10, E11, E12, E20, E21, E22.
    all: do 2 eexists; (split; [exact EQ| ]); clear EQ RE RA UA S.
    all: set (a0 := rq A 0) in *; set (a1 := rq A 1) in *; set (a2 := rq A 2) in *; set (a3 := rq A 3) in *.
    all: assert (K : forall k, (k < 4)%nat -> rq A k = match k with 0%nat => a0 | 1%nat => a1 | 2%nat => a2 | _ => a3 end) by (intros k Hk; destruct k as [ |[ |[ |[ |k]]]]; [reflexivity..|lia]).
    all: clearbody a0 a1 a2 a3.
    all: destruct T1 as [T1 T1']; destruct T2 as [T2 T2']; destruct T3 as [T3 T3']; destruct T4 as [T4 T4']; apply Rabs_le_inv in T1', T2', T3', T4'.
    all: split; [intros k Hk; rewrite K by exact Hk; clear K; destruct k as [ |[ |[ |[ |k]]]]; [ | | | |lia];
         lazy [qcomp q_new_from q0 Quat.q vfun List.nth alist acons anil ahd atl fst snd];
         first [solve [split; [assumption|apply Rabs_le; lra]]
           |match goal with |- is_finite (add ?x ?y) = true /\ Rabs (_ - ?z) <= _ =>
              let Q := fresh in assert (Q : Rabs (B2R x + B2R y - z) <= 2 * e) by (rewrite ?B2R_Bopp; apply Rabs_le; lra);
              destruct (pair_ok x y z (2 * e) ltac:(assumption) ltac:(assumption) ltac:(assumption) ltac:(assumption) Q) as [? ?]; split; [assumption|lra] end]
        |split; [assumption|split; [apply Rabs_le; lra|lra]]]. }
  destruct K as (p & A & Hp4 & UA & RA & Ap & Nq & t & Eq & HN & Ft & Et & Lt). exists A. split; [exact UA|split; [exact RA| ]].
  intros k Hk. rewrite Eq. destruct (branch_ok Nq t (rq A) p (3 * e + 91 / 10 * uro) Hp4 Ap (unit_sq A UA) HN Ft Et ltac:(lra) Lt k Hk) as [F E].
  split; [exact F| ]. unfold qR in E. unfold rq in E. lra.
Qed.


(** ** consequences *)
Lemma from_near (m : M33 fl) (A : Quaternion R) d : unit_quat A -> 0 <= d ->
  (forall k, (k < 4)%nat -> is_finite (qcomp k (q_from_rotation m)) = true /\ Rabs (B2R (qcomp k (q_from_rotation m)) - qcomp k A) <= d) ->
  nrm 4 (fun k => qR (q_from_rotation m) k - rq A k) <= 2 * d /\ near_unit (2 * d) (q_from_rotation m) /\ nrm 4 (rq A) = 1.
Proof.
  intros UA D0 H. assert (E : nrm 4 (fun k => qR (q_from_rotation m) k - rq A k) <= 2 * d).
  { eapply Rle_trans; [apply (nrm_bound 4 _ d D0); intros k Hk; apply (H k Hk)| ]. replace (INR 4) with (2 * 2) by (cbn; lra). rewrite sqrt_square by lra. lra. }
  assert (NA : nrm 4 (rq A) = 1) by (unfold nrm; rewrite (unit_sq A UA); apply sqrt_1).
  split; [exact E|split; [ |exact NA]]. split; [intros k Hk; apply (H k Hk)| ].
  pose proof (nrm_diff 4 (qR (q_from_rotation m)) (rq A)) as X. rewrite NA in X. change (Rabs (nrm 4 (qR (q_from_rotation m)) - 1) <= 2 * d). lra.
Qed.

Lemma rot_exact_diff (A B : nat -> R) i j : (i < 3)%nat -> (j < 3)%nat -> Rabs (rot_exact A i j - rot_exact B i j) <= nrm 4 (fun k => A k - B k) * (nrm 4 A + nrm 4 B).
Proof.
  intros Hi Hj. set (V := fun k => if Nat.eqb k j then 1 else 0).
  assert (SV : forall A, sand A V i = rot_exact A i j) by (intros A'; unfold sand, V; destruct j as [ |[ |[ |j]]]; [ | | |lia]; cbn [Nat.eqb]; ring).
  assert (NV : nrm 3 V = 1).
  { unfold nrm. replace (sq_sum 3 V) with 1; [apply sqrt_1| ]. unfold sq_sum, V. cbn [sumn]. lazy [add zero R_Num]. destruct j as [ |[ |[ |j]]]; [ | | |lia]; cbn [Nat.eqb]; ring. }
  rewrite <- !SV. eapply Rle_trans; [apply (comp_nrm 3 (fun i => sand A V i - sand B V i) i Hi)| ]. eapply Rle_trans; [apply sand_diff| ]. rewrite NV. lra.
Qed.

(** matrix to quaternion to matrix *)
Lemma c95_matrix_round_trip : forall (m : M33 fl) (r : M33 R) e, SO3 r -> 7 * e + 24 * uro <= / 220 ->
  (forall i j, (i < 3)%nat -> (j < 3)%nat -> is_finite (mfun m i j) = true /\ Rabs (B2R (mfun m i j) - mfun r i j) <= e) ->
  near_unit (7 * e + 24 * uro) (q_from_rotation m) /\
  forall i j, (i < 3)%nat -> (j < 3)%nat -> is_finite (mfun (q_to_rotation (q_from_rotation m)) i j) = true /\
  Rabs (B2R (mfun (q_to_rotation (q_from_rotation m)) i j) - B2R (mfun m i j)) <= 15 * e + 52 * uro.
Proof.
  intros m r e S L H. pose proof (uro_small Hp11) as U. pose proof (uro_pos (prec := prec)) as P.
  assert (E0 : 0 <= e) by (eapply Rle_trans; [apply Rabs_pos|apply (H 0 0)%nat; lia]).
  destruct (c95_from_rotation m r e S ltac:(lra) H) as (A & UA & RA & K).
  destruct (from_near m A (312 / 100 * e + 116 / 10 * uro) UA ltac:(lra) K) as (D & N & NA).
  assert (N' : near_unit (7 * e + 24 * uro) (q_from_rotation m)) by (destruct N as [NF N]; split; [exact NF| ]; eapply Rle_trans; [exact N|lra]).
  split; [exact N'| ]. intros i j Hi Hj. destruct (rot_entry_err Hp11 He4 _ _ i j N' L Hi Hj) as [F E]. split; [exact F| ].
  pose proof (rot_exact_diff (qR (q_from_rotation m)) (rq A) i j Hi Hj) as X. rewrite NA in X. rewrite <- rot_exact_R in X by assumption. rewrite RA in X.
  destruct (H i j Hi Hj) as [_ Em]. assert (Nn : nrm 4 (qR (q_from_rotation m)) <= 1005 / 1000) by (destruct N' as [_ N']; apply Rabs_le_inv in N'; change (nrm 4 (qR (q_from_rotation m))) with (nrm 4 (qR (q_from_rotation m))) in *; lra).
  assert (X' : Rabs (rot_exact (qR (q_from_rotation m)) i j - mfun r i j) <= (2 * (312 / 100 * e + 116 / 10 * uro)) * (2005 / 1000)).
  { eapply Rle_trans; [exact X| ]. pose proof (nrm_pos 4 (qR (q_from_rotation m))). apply Rmult_le_compat; try apply nrm_pos; lra. }
  set (z := B2R (mfun (q_to_rotation (q_from_rotation m)) i j)) in *. set (y := rot_exact (qR (q_from_rotation m)) i j) in *.
  replace (z - B2R (mfun m i j)) with ((z - y) + ((y - mfun r i j) + - (B2R (mfun m i j) - mfun r i j))) by ring.
  eapply Rle_trans; [apply Rabs_triang| ]. eapply Rle_trans; [apply Rplus_le_compat_l, Rabs_triang| ]. rewrite Rabs_Ropp. lra.
Qed.

(** quaternion to matrix to quaternion, up to the sign *)
Lemma c95_quaternion_round_trip : forall dl (a : Quaternion fl), near_unit dl a -> dl <= / 300 ->
  exists s, (s = 1 \/ s = -1) /\ forall k, (k < 4)%nat -> is_finite (qcomp k (q_from_rotation (q_to_rotation a))) = true /\
  Rabs (B2R (qcomp k (q_from_rotation (q_to_rotation a))) - s * B2R (qcomp k a)) <= 73 / 10 * dl + 25 * uro.
Proof.
  intros dl a Ha Hd. pose proof (uro_small Hp11) as U. pose proof (uro_pos (prec := prec)) as P. set (n := nrm 4 (qR a)).
  assert (Nb : Rabs (n - 1) <= dl) by (apply (proj2 Ha)). assert (D0 : 0 <= dl) by (eapply Rle_trans; [apply Rabs_pos|exact Nb]).
  apply Rabs_le_inv in Nb. assert (Np : 0 < n) by lra.
  pose (A0 := mkQ (qR a 0 / n) [| qR a 1 / n; qR a 2 / n; qR a 3 / n |] true : Quaternion R).
  assert (R0 : forall k, (k < 4)%nat -> rq A0 k = qR a k / n) by (intros k Hk; destruct k as [ |[ |[ |[ |k]]]]; [reflexivity..|lia]).
  assert (U0 : unit_quat A0).
  { unfold unit_quat. transitivity (sq_sum 4 (rq A0)).
    - unfold sq_sum. cbn [sumn]. unfold A0. lazy. ring.
    - transitivity (sq_sum 4 (qR a) / (n * n)); [unfold sq_sum; cbn [sumn]; rewrite !R0 by lia; lazy [add mul zero R_Num]; field; lra|unfold n; rewrite nrm_sq]. change (one : R) with 1. field. fold n in Np. rewrite <- nrm_sq. fold n. nra. }
  pose proof (c27_to_rotation_SO3 R_ring A0 U0) as S.
  assert (NA : nrm 4 (rq A0) = 1) by (unfold nrm; rewrite (unit_sq A0 U0); apply sqrt_1).
  assert (H : forall i j, (i < 3)%nat -> (j < 3)%nat -> is_finite (mfun (q_to_rotation a) i j) = true /\ Rabs (B2R (mfun (q_to_rotation a) i j) - mfun (q_to_rotation A0) i j) <= 41 / 10 * uro + 201 / 100 * dl).
  { intros i j Hi Hj. destruct (rot_entry_err Hp11 He4 dl a i j Ha ltac:(lra) Hi Hj) as [F E]. split; [exact F| ]. rewrite rot_exact_R by assumption.
    pose proof (rot_exact_diff (qR a) (rq A0) i j Hi Hj) as X. rewrite NA in X. fold n in X.
    assert (Y : nrm 4 (fun k => qR a k - rq A0 k) <= dl).
    { rewrite (nrm_ext 4 _ (fun k => (n - 1) * rq A0 k)) by (intros k Hk; rewrite R0 by exact Hk; field; lra). rewrite nrm_scal, NA, Rmult_1_r. apply Rabs_le. lra. }
    assert (X' : Rabs (rot_exact (qR a) i j - rot_exact (rq A0) i j) <= dl * (201 / 100)) by (eapply Rle_trans; [exact X|apply Rmult_le_compat; try apply nrm_pos; lra]).
    replace (B2R (mfun (q_to_rotation a) i j) - rot_exact (rq A0) i j) with ((B2R (mfun (q_to_rotation a) i j) - rot_exact (qR a) i j) + (rot_exact (qR a) i j - rot_exact (rq A0) i j)) by ring.
    eapply Rle_trans; [apply Rabs_triang|lra]. }
  destruct (c95_from_rotation (q_to_rotation a) (q_to_rotation A0) (41 / 10 * uro + 201 / 100 * dl) S ltac:(lra) H) as (A & UA & RA & K).
  assert (SG : exists s, (s = 1 \/ s = -1) /\ forall k, (k < 4)%nat -> qcomp k A = s * rq A0 k).
  { destruct (to_rotation_determines A A0 UA U0 RA) as [V|V].
    - exists 1. split; [left; reflexivity| ]. intros k Hk. rewrite Rmult_1_l. clearbody A0. destruct A as [x0 (x1&x2&x3&[]) f], A0 as [y0 (y1&y2&y3&[]) g]. lazy in V; injection V as -> -> -> ->. destruct k as [ |[ |[ |[ |k]]]]; [reflexivity..|lia].
    - exists (-1). split; [right; reflexivity| ]. intros k Hk. clearbody A0. destruct A as [x0 (x1&x2&x3&[]) f], A0 as [y0 (y1&y2&y3&[]) g]. lazy in V; injection V as -> -> -> ->. destruct k as [ |[ |[ |[ |k]]]]; [ | | | |lia]; lazy; ring. }
  destruct SG as (s & Hs & SG). exists s. split; [exact Hs| ]. intros k Hk. destruct (K k Hk) as [F E]. split; [exact F| ]. rewrite (SG k Hk) in E.
  assert (B : Rabs (rq A0 k) <= 1) by (rewrite <- NA; apply (comp_nrm 4 (rq A0) k Hk)).
  change (B2R (qcomp k a)) with (qR a k). set (x := B2R (qcomp k (q_from_rotation (q_to_rotation a)))) in *.
  replace (x - s * qR a k) with ((x - s * rq A0 k) + - (s * ((n - 1) * rq A0 k))) by (rewrite R0 by exact Hk; field; lra).
  eapply Rle_trans; [apply Rabs_triang| ]. rewrite Rabs_Ropp, !Rabs_mult.
  assert (Ss : Rabs s = 1) by (destruct Hs as [-> | ->]; [apply Rabs_R1|rewrite Rabs_left by lra; lra]). rewrite Ss, Rmult_1_l.
  assert (Rabs (n - 1) * Rabs (rq A0 k) <= dl * 1) by (apply Rmult_le_compat; try apply Rabs_pos; [apply Rabs_le; lra|exact B]). lra.
Qed.

(** ** dual quaternions of homogeneous matrices *)
#[local] Ltac ufin_go := lazymatch goal with
  | |- ufin (add _ _) _ => eapply ufin_add; [exact Hp11|exact He4|ufin_go..]
  | |- ufin (sub _ _) _ => eapply ufin_sub; [exact Hp11|exact He4|ufin_go..]
  | |- ufin (mul _ _) _ => eapply ufin_mul; [exact Hp11|exact He4|ufin_go..]
  | |- _ => eassumption
  end.

Lemma near_norm2 dl (a : Quaternion fl) : near_unit dl a -> dl <= / 10 -> is_finite (q_norm2 a) = true /\ nearly_zero (q_norm2 a) = false.
Proof.
  intros [Fa Na] Hd. pose proof (uro_small Hp11) as U. pose proof (uro_pos (prec := prec)) as P. pose proof (eta_tiny Hp11 He4) as T. assert (E0 : 0 <= eta) by apply eta_pos.
  apply Rabs_le_inv in Na. change (- dl <= nrm 4 (qR a) - 1 <= dl) in Na.
  assert (FD : is_finite (q_dot a a) = true).
  { assert (L : forall k, (k < 4)%nat -> ufin (qcomp k a) (2, 0%nat)).
    { intros k Hk. apply ufin_leaf; [apply Fa, Hk| |lra]. eapply Rle_trans; [exact (comp_nrm 4 (qR a) k Hk)|lra]. }
    pose proof (L 0%nat ltac:(lia)) as L0. pose proof (L 1%nat ltac:(lia)) as L1. pose proof (L 2%nat ltac:(lia)) as L2. pose proof (L 3%nat ltac:(lia)) as L3.
    pose proof (emax_big Hp11 He4) as EB. clear - L0 L1 L2 L3 Hp11 He4 EB. destruct a as [x0 (x1&x2&x3&[]) fa]. lazy [qcomp vfun List.nth alist q0 Quat.q fst snd] in L0, L1, L2, L3.
    lazy [q_dot v3_dot q0 Quat.q ix0 ix1 ix2 ahd atl fst snd]. eapply (ufin_done Hp11 _ _ _ _ 100 100); [ufin_go|reflexivity|cbn; lra|cbn; lra|lra|lra]. }
  pose proof (q_dot_uerr a FD) as E. cbv zeta in E. change (sq_sum 4 (fun k => B2R (qcomp k a))) with (sq_sum 4 (qR a)) in E. rewrite <- nrm_sq in E.
  pose proof (pow_lin Hp11 4 (401 / 100) ltac:(cbn; lra) ltac:(lra)) as P4. pose proof (pow_mono 0 4 ltac:(lia) : _ <= _ <= (1 + uro) ^ 4) as [_ P4']. rewrite pow_O in P4'.
  set (p := (1 + uro) ^ 4) in *. set (n := nrm 4 (qR a)) in *. clearbody p n.
  assert (DL : 6 / 10 <= B2R (q_dot a a)).
  { assert (N2 : 81 / 100 <= n * n <= 121 / 100) by nra. apply Rabs_le_inv in E. assert ((p - 1) * (n * n) <= (401 / 100 * uro) * (121 / 100)) by (apply Rmult_le_compat; nra).
    assert (p * (4 * eta) <= 2 * (4 * eta)) by (apply Rmult_le_compat_r; lra). lra. }
  assert (FN : is_finite (q_norm2 a) = true).
  { change (q_norm2 a) with (Bsqrt mode_NE (q_dot a a)). destruct (Bsqrt_correct prec emax Hp He mode_NE (q_dot a a)) as (_ & -> & _).
    destruct (q_dot a a) as [ | | |sg mm xx Hx]; try discriminate; [reflexivity| ]. destruct sg; [ |reflexivity]. exfalso.
    assert (B2R (B754_finite true mm xx Hx : fl) < 0) by (apply F2R_lt_0; cbn; lia). lra. }
  split; [exact FN| ]. rewrite nearly_zero_float. destruct epsilon_val as [Fe Ve]. rewrite Bltb_correct; [ |rewrite is_finite_Babs; exact FN|exact Fe]. rewrite B2R_Babs, Ve.
  apply Rlt_bool_false. destruct (sqrt_round (q_dot a a)) as (e & Le & Es). change (Bsqrt mode_NE (q_dot a a)) with (q_norm2 a) in Es. rewrite Es.
  assert (S7 : 7 / 10 <= sqrt (B2R (q_dot a a))) by (rewrite <- (sqrt_square (7 / 10)) by lra; apply sqrt_le_1_alt; lra).
  apply Rabs_le_inv in Le. rewrite Rabs_pos_eq by nra. apply Rle_trans with (6 / 10); [ |nra].
  apply Rle_trans with (bpow radix2 (-1)); [apply bpow_le; lia|cbn; lra].
Qed.

Lemma normalize_flag (a b : Quaternion fl) : q_normalize a = Some b -> normalized b = true.
Proof.
  unfold q_normalize. destruct (normalized a) eqn:N; [intros E; injection E as <-; exact N| ]. destruct (negb _); [intros E; injection E as <-; reflexivity|discriminate].
Qed.

Lemma from_rotation_flag (m : M33 fl) : normalized (q_from_rotation m) = false.
Proof.
  unfold q_from_rotation. cbv zeta. destruct (ltb _ zero); [destruct (ltb _ _)|destruct (ltb _ _)]; reflexivity.
Qed.

Lemma c95_new_from_homogeneous : forall (m : M44 fl) (r : M33 R) e, SO3 r -> e <= / 200 ->
  (forall i j, (i < 3)%nat -> (j < 3)%nat -> is_finite (mfun m i j) = true /\ Rabs (B2R (mfun m i j) - mfun r i j) <= e) ->
  (forall i, (i < 3)%nat -> is_finite (mfun m i 3) = true /\ Rabs (B2R (mfun m i 3)) <= bpow radix2 (emax - 12)) ->
  exists D (A : Quaternion R), dq_new_from_homogeneous m = Ok D /\ unit_quat A /\ q_to_rotation A = r /\ near_unit (9 * uro) (dq_real D) /\
  (forall k, (k < 4)%nat -> Rabs (B2R (qcomp k (dq_real D)) - qcomp k A) <= 94 / 10 * e + 41 * uro) /\
  (forall i, (i < 3)%nat -> is_finite (vfun (dq_get_translation D) i) = true) /\
  nrm 3 (fun i => B2R (vfun (dq_get_translation D) i) - B2R (mfun m i 3)) <= 36 * uro * nrm 3 (fun i => B2R (mfun m i 3)) + 35 * eta.
Proof.
  intros m r e S Le H Ht. pose proof (uro_small Hp11) as U. pose proof (uro_pos (prec := prec)) as P. pose proof (eta_tiny Hp11 He4) as T. assert (E0 : 0 <= eta) by apply eta_pos.
  pose (rot := fst (get_parts_raw m)). pose (p := snd (get_parts_raw m)).
  assert (Er : forall i j, (i < 3)%nat -> (j < 3)%nat -> mfun rot i j = mfun m i j).
  { intros i j Hi Hj. unfold rot. destruct m as ((m00&m01&m02&m03&[])&(m10&m11&m12&m13&[])&(m20&m21&m22&m23&[])&(m30&m31&m32&m33&[])&[]).
    destruct i as [ |[ |[ |i]]]; [ | | |lia]; (destruct j as [ |[ |[ |j]]]; [reflexivity..|lia]). }
  assert (Ep : forall i, (i < 3)%nat -> vfun p i = mfun m i 3).
  { intros i Hi. unfold p. destruct m as ((m00&m01&m02&m03&[])&(m10&m11&m12&m13&[])&(m20&m21&m22&m23&[])&(m30&m31&m32&m33&[])&[]).
    destruct i as [ |[ |[ |i]]]; [reflexivity..|lia]. }
  assert (Hr : forall i j, (i < 3)%nat -> (j < 3)%nat -> is_finite (mfun rot i j) = true /\ Rabs (B2R (mfun rot i j) - mfun r i j) <= e) by (intros i j Hi Hj; rewrite Er by assumption; apply H; assumption).
  assert (e0 : 0 <= e) by (eapply Rle_trans; [apply Rabs_pos|apply (H 0 0)%nat; lia]).
  destruct (c95_from_rotation rot r e S ltac:(lra) Hr) as (A & UA & RA & K). destruct (from_near rot A (312 / 100 * e + 116 / 10 * uro) UA ltac:(lra) K) as (D & N & NA).
  destruct (near_norm2 (2 * (312 / 100 * e + 116 / 10 * uro)) (q_from_rotation rot) N ltac:(lra)) as [FN ZN].
  assert (EN : exists b, q_normalize (q_from_rotation rot) = Some b).
  { unfold q_normalize. rewrite from_rotation_flag, ZN. cbn [negb]. eexists. reflexivity. }
  destruct EN as [b Eb]. pose proof (normalize_flag _ _ Eb) as Fb. pose proof (c91_normalize_near Hp11 He4 _ b (from_rotation_flag rot) FN Eb) as Nb.
  pose proof (c87_normalize Hp11 He4 _ b (from_rotation_flag rot) FN Eb) as [_ Cb]. cbv zeta in Cb. change (sqrt (sq_sum 4 (fun k => B2R (qcomp k (q_from_rotation rot))))) with (nrm 4 (qR (q_from_rotation rot))) in Cb.
  assert (ED : exists D, dq_new_from_rot_trans b p = Ok D /\ dq_real D = b).
  { unfold dq_new_from_rot_trans. cbv zeta. assert (X : q_normalize b = Some b) by (unfold q_normalize; rewrite Fb; reflexivity). rewrite X. cbn [unwrap bind]. eexists. split; reflexivity. }
  destruct ED as (dq & ED & RD). exists dq, A.
  assert (EH : dq_new_from_homogeneous m = Ok dq).
  { unfold dq_new_from_homogeneous. assert (Pr : get_parts_raw m = (rot, p)) by (unfold rot, p; destruct (get_parts_raw m); reflexivity). rewrite Pr, Eb. cbn [unwrap bind]. exact ED. }
  split; [exact EH|split; [exact UA|split; [exact RA| ]]]. rewrite RD. split; [exact Nb|split].
  - intros k Hk. destruct (Cb k Hk) as [_ E]. destruct (K k Hk) as [_ Ek]. destruct N as [_ N]. change (Rabs (nrm 4 (qR (q_from_rotation rot)) - 1) <= 2 * (312 / 100 * e + 116 / 10 * uro)) in N.
    pose proof (comp_nrm 4 (qR (q_from_rotation rot)) k Hk) as CN. change (B2R (qcomp k (q_from_rotation rot))) with (qR (q_from_rotation rot) k) in *.
    set (n := nrm 4 (qR (q_from_rotation rot))) in *. set (x := qR (q_from_rotation rot) k) in *. clearbody n x. pose proof N as N2. apply Rabs_le_inv in N2. assert (Np : 0 < n) by lra.
    assert (Q : Rabs (x / n) <= 1).
    { unfold Rdiv. rewrite Rabs_mult, (Rabs_pos_eq (/ n)) by (left; apply Rinv_0_lt_compat; lra). apply Rmult_le_reg_r with n; [lra| ]. rewrite Rmult_assoc, Rinv_l by lra. lra. }
    replace (B2R (qcomp k b) - qcomp k A) with ((B2R (qcomp k b) - x / n) + (- ((n - 1) * (x / n)) + (x - qcomp k A))) by (field; lra).
    eapply Rle_trans; [apply Rabs_triang| ]. eapply Rle_trans; [apply Rplus_le_compat_l, Rabs_triang| ]. rewrite Rabs_Ropp, (Rabs_mult (n - 1)).
    assert (Rabs (n - 1) * Rabs (x / n) <= (2 * (312 / 100 * e + 116 / 10 * uro)) * 1) by (apply Rmult_le_compat; try apply Rabs_pos; assumption).
    assert (5 * uro * Rabs (x / n) <= 5 * uro * 1) by (apply Rmult_le_compat_l; lra). lra.
  - assert (Hp' : forall i, (i < 3)%nat -> is_finite (vfun p i) = true /\ Rabs (B2R (vfun p i)) <= bpow radix2 (emax - 12)) by (intros i Hi; rewrite Ep by exact Hi; apply Ht, Hi).
    assert (Nd : near_unit (9 * uro) (dq_real dq)) by (rewrite RD; exact Nb).
    destruct (c94_translation Hp11 He4 (9 * uro) b p dq ED Nd ltac:(lra) Hp') as [F E]. split; [exact F| ].
    rewrite (nrm_ext 3 (fun i => B2R (mfun m i 3)) (fun i => B2R (vfun p i))) by (intros i Hi; rewrite Ep by exact Hi; reflexivity).
    rewrite (nrm_ext 3 _ (fun i => B2R (vfun (dq_get_translation dq) i) - B2R (vfun p i))) by (intros i Hi; rewrite Ep by exact Hi; reflexivity).
    eapply Rle_trans; [exact E| ]. pose proof (nrm_pos 3 (fun i => B2R (vfun p i))) as Pn. apply Rplus_le_compat_r, Rmult_le_compat_r; lra.
Qed.

End F.

(** ** Concrete cases (f64) *)
#[local] Instance prec53 : Prec_gt_0 53 := eq_refl.
#[local] Instance emax1024 : Prec_lt_emax 53 1024 := eq_refl.
#[local] Notation f64 := (binary_float 53 1024).

Lemma uro53 : uro (prec := 53) <= / 10 ^ 15.
Proof. unfold FloatFacts.uro. change (bpow radix2 (1 - 53)) with (/ 4503599627370496). lra. Qed.

Definition turn_z : M33 R := [| [| 0; -1; 0 |]; [| 1; 0; 0 |]; [| 0; 0; 1 |] |].
Lemma turn_z_SO3 : SO3 turn_z.
Proof.
  unfold SO3, turn_z. split; [ |split].
  - lazy -[Rplus Rmult Ropp]. repeat f_equal; ring.
  - lazy -[Rplus Rmult Ropp]. repeat f_equal; ring.
  - lazy -[Rplus Rmult Ropp Rminus]. ring.
Qed.

Definition turn_z_f (x y z : Z) : M44 f64 := [| [| fofZ 0; fofZ (-1); fofZ 0; fofZ x |]; [| fofZ 1; fofZ 0; fofZ 0; fofZ y |]; [| fofZ 0; fofZ 0; fofZ 1; fofZ z |]; [| fofZ 0; fofZ 0; fofZ 0; fofZ 1 |] |].

Lemma turn_z_val x y z i j : (i < 3)%nat -> (j < 3)%nat -> is_finite (mfun (turn_z_f x y z) i j) = true /\ Rabs (B2R (mfun (turn_z_f x y z) i j) - mfun turn_z i j) <= 0.
Proof.
  intros Hi Hj. destruct (fofZ_int (prec := 53) (emax := 1024) 0 ltac:(cbn; lia)) as [F0 V0].
  destruct (fofZ_int (prec := 53) (emax := 1024) 1 ltac:(cbn; lia)) as [F1 V1]. destruct (fofZ_int (prec := 53) (emax := 1024) (-1) ltac:(cbn; lia)) as [F2 V2].
  destruct i as [ |[ |[ |i]]]; [ | | |lia]; (destruct j as [ |[ |[ |j]]]; [ | | |lia]);
    lazy [turn_z_f turn_z mfun vfun alist List.map List.nth acons anil ahd atl fst snd]; (split; [assumption| ]); rewrite ?V0, ?V1, ?V2; apply Rabs_le; lra.
Qed.

(** the quarter turn about z moved by (4, 2, 3) *)
Example C95_case_homogeneous : forall O : FOracle f64, exists D, dq_new_from_homogeneous (turn_z_f 4 2 3) = Ok D /\ near_unit (/ 10 ^ 13) (dq_real D) /\
  Rabs (B2R (vfun (dq_get_translation D) 0) - 4) <= / 10 ^ 12.
Proof.
  intros O. assert (Ht : forall i, (i < 3)%nat -> is_finite (mfun (turn_z_f 4 2 3) i 3) = true /\ 0 <= B2R (mfun (turn_z_f 4 2 3) i 3) <= 4).
  { intros i Hi. destruct (fofZ_int (prec := 53) (emax := 1024) 4 ltac:(cbn; lia)) as [F0 V0].
    destruct (fofZ_int (prec := 53) (emax := 1024) 2 ltac:(cbn; lia)) as [F1 V1]. destruct (fofZ_int (prec := 53) (emax := 1024) 3 ltac:(cbn; lia)) as [F2 V2].
    destruct i as [ |[ |[ |i]]]; [ | | |lia]; lazy [turn_z_f mfun vfun alist List.map List.nth acons anil ahd atl fst snd]; (split; [assumption| ]); rewrite ?V0, ?V1, ?V2; lra. }
  destruct (c95_new_from_homogeneous (prec := 53) (emax := 1024) ltac:(lia) ltac:(lia) (turn_z_f 4 2 3) turn_z 0 turn_z_SO3 ltac:(lra) (turn_z_val 4 2 3)) as (D & A & ED & _ & _ & N & _ & _ & E).
  { intros i Hi. destruct (Ht i Hi) as [F B]. split; [exact F| ]. rewrite Rabs_pos_eq by lra. apply Rle_trans with (bpow radix2 2); [cbn; lra|apply bpow_le; lia]. }
  exists D. pose proof uro53 as U. split; [exact ED|split; [destruct N as [NF N]; split; [exact NF|eapply Rle_trans; [exact N|lra]]| ]].
  assert (B : nrm 3 (fun i => B2R (mfun (turn_z_f 4 2 3) i 3)) <= sqrt (INR 3) * 4) by (apply nrm_bound; [lra|intros k Hk; rewrite Rabs_pos_eq; apply Ht, Hk]).
  assert (S3 : sqrt (INR 3) <= 2) by (rewrite <- (sqrt_square 2) by lra; apply sqrt_le_1_alt; cbn; lra).
  pose proof (comp_nrm 3 (fun i => B2R (vfun (dq_get_translation D) i) - B2R (mfun (turn_z_f 4 2 3) i 3)) 0 ltac:(lia)) as C. cbv beta in C.
  assert (V4 : B2R (mfun (turn_z_f 4 2 3) 0 3) = 4) by (destruct (fofZ_int (prec := 53) (emax := 1024) 4 ltac:(cbn; lia)) as [F0 V0]; exact V0). rewrite V4 in C.
  eapply Rle_trans; [exact C|eapply Rle_trans; [exact E| ]]. pose proof (eta_tiny (prec := 53) (emax := 1024) ltac:(lia) ltac:(lia)) as T. pose proof (nrm_pos 3 (fun i => B2R (mfun (turn_z_f 4 2 3) i 3))) as Z.
  clear C E. generalize dependent (nrm 3 (fun i => B2R (mfun (turn_z_f 4 2 3) i 3))). intros n B Z. assert (B' : n <= 8) by lra. clear B S3. set (h := FloatFacts.eta) in *. set (u := FloatFacts.uro (prec := 53)) in *. assert (U0 : 0 <= u) by (apply Rlt_le, uro_pos). assert (u * n <= / 10 ^ 15 * 8) by (apply Rmult_le_compat; lra). lra.
Qed.

(** (1, 1, 1, 1) / 2, the third of a turn about (1, 1, 1) *)
Example C95_case : forall O : FOracle f64, let a := q_new (p2 (-1)) [| p2 (-1); p2 (-1); p2 (-1) |] : Quaternion f64 in
  exists s, (s = 1 \/ s = -1) /\ forall k, (k < 4)%nat -> Rabs (B2R (qcomp k (q_from_rotation (q_to_rotation a))) - s / 2) <= / 10 ^ 13.
Proof.
  intros O a. assert (V : forall k, (k < 4)%nat -> B2R (qcomp k a) = / 2).
  { assert (X : B2R (p2 (-1) : f64) = / 2) .
    { assert (Y : B2SF (p2 (-1) : f64) = SpecFloat.S754_finite false 4503599627370496 (-53)) by (vm_compute; reflexivity). destruct (p2 (-1)) as [b|b| |b m' e' B]; try discriminate. cbn [B2SF] in Y. injection Y as -> -> ->. unfold B2R, F2R. cbn. lra. }
    intros k Hk. destruct k as [ |[ |[ |[ |k]]]]; [exact X..|lia]. }
  assert (N : near_unit 0 a).
  { split; [intros k Hk; destruct k as [ |[ |[ |[ |k]]]]; [vm_compute; reflexivity..|lia]| ]. 
    assert (Q : nrm 4 (qR a) = 1); [ |change (Rabs (nrm 4 (qR a) - 1) <= 0); rewrite Q; unfold Rminus; rewrite Rplus_opp_r, Rabs_R0; lra].
    unfold nrm, sq_sum. cbn [sumn]. unfold qR. rewrite !V by lia. lazy [add mul zero R_Num]. replace (0 + / 2 * / 2 + / 2 * / 2 + / 2 * / 2 + / 2 * / 2) with 1 by lra. apply sqrt_1. }
  destruct (c95_quaternion_round_trip (prec := 53) (emax := 1024) ltac:(lia) ltac:(lia) 0 a N ltac:(lra)) as (s & Hs & H). exists s. split; [exact Hs| ].
  intros k Hk. destruct (H k Hk) as [_ E]. rewrite (V k Hk) in E. pose proof uro53. unfold Rdiv. lra.
Qed.

(** the quarter turn about z *)
Example C95_case_matrix : forall O : FOracle f64, let m := fst (get_parts_raw (turn_z_f 0 0 0)) in
  Rabs (B2R (mfun (q_to_rotation (q_from_rotation m)) 0 1) - -1) <= / 10 ^ 13.
Proof.
  intros O m. pose proof uro53 as U. assert (H : forall i j, (i < 3)%nat -> (j < 3)%nat -> is_finite (mfun m i j) = true /\ Rabs (B2R (mfun m i j) - mfun turn_z i j) <= 0).
  { intros i j Hi Hj. pose proof (turn_z_val 0 0 0 i j Hi Hj) as X. destruct i as [ |[ |[ |i]]]; [ | | |lia]; (destruct j as [ |[ |[ |j]]]; [exact X..|lia]). }
  destruct (c95_matrix_round_trip (prec := 53) (emax := 1024) ltac:(lia) ltac:(lia) m turn_z 0 turn_z_SO3 ltac:(lra) H) as [_ E].
  destruct (E 0%nat 1%nat ltac:(lia) ltac:(lia)) as [_ X]. assert (V : B2R (mfun m 0 1) = -1) by (destruct (fofZ_int (prec := 53) (emax := 1024) (-1) ltac:(cbn; lia)) as [F0 V0]; exact V0). rewrite V in X. lra.
Qed.
