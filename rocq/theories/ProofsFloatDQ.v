(** * ProofsFloatDQ: rigid motions as dual quaternions on floats (C94) *)

From Coq Require Import List Arith ZArith Reals Bool Lra Lia.
From Flocq Require Import Core Relative Sterbenz Mult_error IEEE754.BinarySingleNaN.
From Verif Require Import Base Scalar Vec Mat2 Mat3 Mat4 Mat5 Mat6 Slices MatLoops MatOps Quat Transf DualQuat RingDet Spec LoopFacts Entries InstZ InstR RFacts LUFacts QRFacts ProofsRing ProofsQuat InstF FloatFacts ProofsFloat ProofsFloat2 ProofsFloatErr ProofsFloatInv ProofsFloatNorm ProofsFloatRot ProofsFloatDrift.
Local Open Scope R_scope.

(** ** the translation of a dual quaternion over the reals *)
Definition tv (A D : nat -> R) (i : nat) : R := 2 * hp D (cj A) (S i).

Lemma tv_rot A V i : (i < 3)%nat -> tv A (fun k => / 2 * hp (emb V) A k) i = sq_sum 4 A * V i.
Proof. intros Hi. unfold tv. destruct i as [ |[ |[ |i]]]; [ | | |lia]; open3; field. Qed.
Lemma tv_compose A B V W i : (i < 3)%nat ->
  tv (hp A B) (fun k => / 2 * hp A (hp (emb W) B) k + / 2 * hp (hp (emb V) A) B k) i = sq_sum 4 B * sand A W i + sq_sum 4 A * sq_sum 4 B * V i.
Proof. intros Hi. unfold tv. destruct i as [ |[ |[ |i]]]; [ | | |lia]; open3; field. Qed.
Lemma hp_lin_l A A' B c : hp (fun k => A k + A' k) B c = hp A B c + hp A' B c.
Proof. unfold hp. destruct c as [ |[ |[ |c]]]; lazy [add sub mul zero R_Num hamilton h4 comp4]; ring. Qed.
Lemma hp_lin_r A B B' c : hp A (fun k => B k + B' k) c = hp A B c + hp A B' c.
Proof. unfold hp. destruct c as [ |[ |[ |c]]]; lazy [add sub mul zero R_Num hamilton h4 comp4]; ring. Qed.
Lemma hp_ext A A' B B' c : (forall k, (k < 4)%nat -> A k = A' k) -> (forall k, (k < 4)%nat -> B k = B' k) -> hp A B c = hp A' B' c.
Proof. intros HA HB. unfold hp, h4. rewrite !HA, !HB by lia. reflexivity. Qed.
Lemma nrm3_tail2 f c : 0 <= c -> nrm 3 (fun i => c * f (S i)) <= c * nrm 4 f.
Proof. intros Hc. rewrite (nrm_scal 3 c (fun i => f (S i))), (Rabs_pos_eq c Hc). apply Rmult_le_compat_l; [exact Hc|exact (nrm_tail f)]. Qed.

Lemma nrm_mono4 f g : (forall k, (k < 4)%nat -> Rabs (f k) <= Rabs (g k)) -> nrm 4 f <= nrm 4 g.
Proof.
  intros H. unfold nrm, sq_sum. apply sqrt_le_1_alt. apply sumn_le. intros k Hk. pose proof (H k Hk) as A. pose proof (Rabs_pos (f k)).
  rewrite <- (Rabs_pos_eq (f k * f k)), <- (Rabs_pos_eq (g k * g k)) by apply Rle_0_sqr. rewrite !Rabs_mult. apply Rmult_le_compat; lra.
Qed.

Section F.
Context {prec emax : Z} {Hp : Prec_gt_0 prec} {He : Prec_lt_emax prec emax} {O : FOracle (binary_float prec emax)}.
Notation fl := (binary_float prec emax).
Notation uro := (uro (prec := prec)).
Notation eta := (eta (prec := prec) (emax := emax)).
Hypothesis Hp11 : (11 <= prec)%Z.
Hypothesis He4 : (4 * prec <= emax)%Z.

#[local] Ltac ufin_go := lazymatch goal with
  | |- ufin (add _ _) _ => eapply ufin_add; [exact Hp11|exact He4|ufin_go..]
  | |- ufin (sub _ _) _ => eapply ufin_sub; [exact Hp11|exact He4|ufin_go..]
  | |- ufin (mul _ _) _ => eapply ufin_mul; [exact Hp11|exact He4|ufin_go..]
  | |- _ => eassumption
  end.

(** finite components of size at most [A] *)
Definition q_le (A : R) (a : Quaternion fl) : Prop := forall k, (k < 4)%nat -> is_finite (qcomp k a) = true /\ Rabs (qR a k) <= A.

(** one product of quaternions of any size *)
Lemma q_mul_gen (a b : Quaternion fl) A B : 1 <= A -> 1 <= B -> 100 * (A * B) <= bpow radix2 emax -> q_le A a -> q_le B b ->
  (forall k, (k < 4)%nat -> is_finite (qcomp k (q_mul a b)) = true) /\
  nrm 4 (fun k => qR (q_mul a b) k - hp (qR a) (qR b) k) <= 803 / 100 * uro * (nrm 4 (qR a) * nrm 4 (qR b)) + 9 * eta.
Proof.
  intros A1 B1 L Ha Hb.
  assert (FF : forall k, (k < 4)%nat -> is_finite (qcomp k (q_mul a b)) = true).
  { assert (La : forall k, (k < 4)%nat -> ufin (qcomp k a) (A, 0%nat)) by (intros k Hk; apply ufin_leaf; [apply Ha, Hk|apply Ha, Hk|lra]).
    assert (Lb : forall k, (k < 4)%nat -> ufin (qcomp k b) (B, 0%nat)) by (intros k Hk; apply ufin_leaf; [apply Hb, Hk|apply Hb, Hk|lra]).
    pose proof (La 0%nat ltac:(lia)) as L0. pose proof (La 1%nat ltac:(lia)) as L1. pose proof (La 2%nat ltac:(lia)) as L2. pose proof (La 3%nat ltac:(lia)) as L3.
    pose proof (Lb 0%nat ltac:(lia)) as M0. pose proof (Lb 1%nat ltac:(lia)) as M1. pose proof (Lb 2%nat ltac:(lia)) as M2. pose proof (Lb 3%nat ltac:(lia)) as M3.
    assert (AB : 1 * 1 <= A * B) by (apply Rmult_le_compat; lra).
    clear - L0 L1 L2 L3 M0 M1 M2 M3 Hp11 He4 L AB. set (P := bpow radix2 emax) in *.
    destruct a as [x0 (x1&x2&x3&[]) fa], b as [y0 (y1&y2&y3&[]) fb].
    lazy [qcomp vfun List.nth alist q0 Quat.q fst snd] in L0, L1, L2, L3, M0, M1, M2, M3.
    intros k Hk. destruct k as [ |[ |[ |[ |k]]]]; [ | | | |lia];
    lazy [q_mul q_new v3_add v3_scale v3_cross v3_dot qcomp vfun List.nth alist ix0 ix1 ix2 ahd atl acons anil fst snd q0 Quat.q q_real q_imag];
    (eapply (ufin_done Hp11 _ _ _ _ (11 * (A * B)) 100); [ufin_go|reflexivity|lra|cbn; lra|lra|fold P; lra]). }
  split; [exact FF| ]. pose proof (uro_small Hp11) as U. pose proof (uro_pos (prec := prec)) as P.
  pose proof (eta_tiny Hp11 He4) as T. assert (E0 : 0 <= eta) by apply eta_pos.
  pose proof (pow_lin Hp11 4 (401 / 100) ltac:(cbn; lra) ltac:(lra)) as P4. pose proof (pow_mono 0 4 ltac:(lia) : _ <= _ <= (1 + uro) ^ 4) as [_ P4']. rewrite pow_O in P4'.
  set (m := nrm 4 (qR a) * nrm 4 (qR b)) in *. assert (M : 0 <= m) by (apply Rmult_le_pos; apply nrm_pos).
  eapply Rle_trans; [apply (nrm_bound 4 _ (401 / 100 * uro * m + 44 / 10 * eta))| ].
  - assert (0 <= uro * m) by (apply Rmult_le_pos; lra). lra.
  - intros k Hk. pose proof (c87_q_mul_error a b k Hk (FF k Hk)) as E. cbv zeta in E. fold (hp (qR a) (qR b) k) in E. fold (qR (q_mul a b) k) in E. fold (qR a) in E. fold (qR b) in E.
    eapply Rle_trans; [exact E| ]. pose proof (hmag_le (qR a) (qR b) k Hk) as Hm. fold m in Hm.
    set (h := hmag (qR a) (qR b) k) in *. assert (0 <= h) by (unfold h, hmag; destruct k as [ |[ |[ |k]]]; repeat apply Rplus_le_le_0_compat; apply Rabs_pos).
    set (p := (1 + uro) ^ 4) in *. clearbody p h. apply Rplus_le_compat.
    + apply Rmult_le_compat; lra.
    + apply Rle_trans with (11 / 10 * (4 * eta)); [apply Rmult_le_compat_r; lra|lra].
  - replace (INR 4) with (2 * 2) by (cbn; lra). rewrite sqrt_square by lra. assert (0 <= uro * m) by (apply Rmult_le_pos; lra). lra.
Qed.

Lemma q_add_gen (a b : Quaternion fl) A : 1 <= A -> 10 * A <= bpow radix2 emax -> q_le A a -> q_le A b ->
  (forall k, (k < 4)%nat -> is_finite (qcomp k (q_add a b)) = true) /\
  nrm 4 (fun k => qR (q_add a b) k - (qR a k + qR b k)) <= uro * (nrm 4 (qR a) + nrm 4 (qR b)).
Proof.
  intros A1 L Ha Hb. pose proof (uro_pos (prec := prec)) as P.
  assert (Ea : forall k, (k < 4)%nat -> qcomp k (q_add a b) = add (qcomp k a) (qcomp k b)).
  { intros k Hk. destruct a as [x0 (x1&x2&x3&[]) fa], b as [y0 (y1&y2&y3&[]) fb]. destruct k as [ |[ |[ |[ |k]]]]; [reflexivity..|lia]. }
  assert (FF : forall k, (k < 4)%nat -> is_finite (qcomp k (q_add a b)) = true).
  { intros k Hk. rewrite Ea by exact Hk. assert (La : ufin (qcomp k a) (A, 0%nat)) by (apply ufin_leaf; [apply Ha, Hk|apply Ha, Hk|lra]).
    assert (Lb : ufin (qcomp k b) (A, 0%nat)) by (apply ufin_leaf; [apply Hb, Hk|apply Hb, Hk|lra]).
    eapply (ufin_done Hp11 _ _ _ _ (3 * A) 100); [ufin_go|reflexivity|lra|cbn; lra|lra|lra]. }
  split; [exact FF| ]. eapply Rle_trans; [apply (nrm_mono4 _ (fun k => uro * (qR a k + qR b k)))| ].
  - intros k Hk. pose proof (FF k Hk) as F. unfold qR. rewrite Ea in F |- * by exact Hk. rewrite (Rabs_mult uro), (Rabs_pos_eq uro) by lra. exact (plus_rel (qcomp k a) (qcomp k b) F).
  - rewrite (nrm_scal 4 uro (fun k => qR a k + qR b k)), (Rabs_pos_eq uro) by lra. apply Rmult_le_compat_l; [lra|apply nrm_plus].
Qed.

(** ** doubling and halving *)
Lemma two_val : is_finite (add one one : fl) = true /\ B2R (add one one : fl) = 2.
Proof.
  assert (I : intval (one : fl) 1) by (split; [apply is_finite_Bone|apply Bone_correct]).
  destruct (intval_plus _ _ _ _ I I) as [F V]; [ |split; [exact F|exact V]].
  change (Z.abs (1 + 1)) with (2 ^ 1)%Z. apply Z.pow_le_mono_r; lia.
Qed.

Lemma half_val : is_finite (div one (add one one) : fl) = true /\ B2R (div one (add one one) : fl) = / 2.
Proof.
  destruct two_val as [F2 V2]. assert (N : B2R (add one one : fl) <> 0) by (rewrite V2; lra).
  pose proof (Bdiv_correct prec emax Hp He mode_NE one (add one one) N) as C. rewrite V2 in C. assert (V1 : B2R (one : fl) = 1) by apply Bone_correct. rewrite V1 in C.
  cbn [round_mode] in C. rewrite fe_eq in C. rewrite round_generic in C.
  - rewrite Rlt_bool_true in C; [destruct C as (C1 & C2 & _)| ].
    + assert (F1 : is_finite (one : fl) = true) by apply is_finite_Bone. rewrite F1 in C2. split; [exact C2| ]. change (B2R (Bdiv mode_NE one (add one one) : fl) = / 2). rewrite C1. lra.
    + rewrite Rabs_pos_eq by lra. apply Rlt_trans with (bpow radix2 0); [cbn; lra|apply bpow_lt; lia].
  - apply valid_rnd_N.
  - replace (1 / 2) with (bpow radix2 (-1)) by (cbn; lra). apply generic_format_FLT_bpow; [exact Hp|lia].
Qed.

Lemma dbl_val (x : fl) : is_finite x = true -> 2 * Rabs (B2R x) < bpow radix2 emax -> is_finite (mul x (add one one)) = true /\ B2R (mul x (add one one)) = 2 * B2R x.
Proof.
  intros F L. destruct two_val as [F2 V2]. pose proof (Bmult_correct prec emax Hp He mode_NE x (add one one)) as C. rewrite V2 in C. cbn [round_mode] in C. rewrite fe_eq in C.
  rewrite round_generic in C.
  - rewrite Rlt_bool_true in C; [destruct C as (C1 & C2 & _)| ].
    + rewrite F, F2 in C2. split; [exact C2| ]. change (B2R (Bmult mode_NE x (add one one)) = 2 * B2R x). rewrite C1. ring.
    + rewrite Rabs_mult, (Rabs_pos_eq 2) by lra. lra.
  - apply valid_rnd_N.
  - change 2 with (bpow radix2 1). apply mult_bpow_pos_exact_FLT; [apply generic_format_B2R|lia].
Qed.

Lemma hlf_val (x : fl) : is_finite x = true ->
  is_finite (mul x (div one (add one one))) = true /\ Rabs (B2R (mul x (div one (add one one))) - / 2 * B2R x) <= eta /\
  (bpow radix2 (4 - emax) <= Rabs (B2R x) -> B2R (mul x (div one (add one one))) = / 2 * B2R x).
Proof.
  intros F. destruct half_val as [F2 V2]. pose proof (Bmult_correct prec emax Hp He mode_NE x (div one (add one one))) as C. rewrite V2 in C. cbn [round_mode] in C. rewrite fe_eq in C.
  assert (Lx : Rabs (B2R x) < bpow radix2 emax) by (apply abs_B2R_lt_emax).
  assert (X : bpow radix2 (4 - emax) <= Rabs (B2R x) -> generic_format radix2 (FLT_exp (3 - emax - prec) prec) (B2R x * / 2)).
  { intros B. replace (/ 2) with (bpow radix2 (-1)) by (cbn; lra). apply mult_bpow_exact_FLT; [apply generic_format_B2R| ].
    assert (M : (4 - emax + 1 <= mag radix2 (B2R x))%Z) by (apply mag_ge_bpow; replace (4 - emax + 1 - 1)%Z with (4 - emax)%Z by ring; exact B). lia. }
  assert (D : Rabs (round radix2 (FLT_exp (3 - emax - prec) prec) ZnearestE (B2R x * / 2) - B2R x * / 2) <= eta).
  { destruct (Rle_or_lt (bpow radix2 (4 - emax)) (Rabs (B2R x))) as [B|B].
    - rewrite round_generic; [ |apply valid_rnd_N|apply X, B]. unfold Rminus. rewrite Rplus_opp_r, Rabs_R0. apply Rlt_le, FloatFacts.eta_pos.
    - eapply Rle_trans; [apply error_le_half_ulp, FLT_exp_valid; exact Hp| ]. apply Rmult_le_compat_l; [lra| ].
      rewrite ulp_FLT_small; [apply Rle_refl|exact Hp| ]. rewrite Rabs_mult, (Rabs_pos_eq (/ 2)) by lra.
      apply Rlt_le_trans with (bpow radix2 (4 - emax) * / 2); [apply Rmult_lt_compat_r; lra| ].
      replace (/ 2) with (bpow radix2 (-1)) by (cbn; lra). rewrite <- bpow_plus. apply bpow_le. lia. }
  rewrite Rlt_bool_true in C.
  - destruct C as (C1 & C2 & _). rewrite F, F2 in C2. split; [exact C2| ].
    assert (E : B2R (mul x (div one (add one one))) = round radix2 (FLT_exp (3 - emax - prec) prec) ZnearestE (B2R x * / 2)) by exact C1. rewrite E. clear C1 E.
    rewrite (Rmult_comm (/ 2)). split; [exact D| ]. intros B. apply round_generic; [apply valid_rnd_N|apply X, B].
  - apply Rle_lt_trans with (Rabs (B2R x)); [ |exact Lx]. apply abs_round_le_generic; [apply FLT_exp_valid; exact Hp|apply valid_rnd_N|apply generic_format_abs, generic_format_B2R| ].
    rewrite Rabs_mult, (Rabs_pos_eq (/ 2)) by lra. pose proof (Rabs_pos (B2R x)). lra.
Qed.

(** ** the parts of a dual quaternion *)
Lemma near_le dl (a : Quaternion fl) : near_unit dl a -> dl <= / 220 -> q_le 2 a /\ nrm 4 (qR a) <= 1005 / 1000.
Proof.
  intros [F N] D. apply Rabs_le_inv in N. split; [ |lra]. intros k Hk. split; [apply F, Hk| ]. eapply Rle_trans; [exact (comp_nrm 4 (qR a) k Hk)|lra].
Qed.

Lemma conj_val (a : Quaternion fl) A : q_le A a -> q_le A (q_conj a) /\ forall k, (k < 4)%nat -> qR (q_conj a) k = cj (qR a) k.
Proof.
  intros H. assert (E : forall k, (k < 4)%nat -> qcomp k (q_conj a) = match k with 0%nat => qcomp 0 a | _ => Bopp (qcomp k a) end).
  { intros k Hk. destruct a as [x0 (x1&x2&x3&[]) fa]. destruct k as [ |[ |[ |[ |k]]]]; [reflexivity..|lia]. }
  assert (V : forall k, (k < 4)%nat -> qR (q_conj a) k = cj (qR a) k).
  { intros k Hk. unfold qR at 1. rewrite E by exact Hk. destruct k as [ |k]; [reflexivity| ]. rewrite B2R_Bopp. reflexivity. }
  split; [ |exact V]. intros k Hk. destruct (H k Hk) as [F B]. rewrite V by exact Hk. rewrite E by exact Hk. destruct k as [ |k]; cbn [cj]; [split; assumption| ].
  rewrite is_finite_Bopp, Rabs_Ropp. split; assumption.
Qed.

Lemma dbl_q (d : Quaternion fl) A : 4 * A <= bpow radix2 emax -> 1 <= A -> q_le A d -> q_le (2 * A) (q_scale d (add one one)) /\ forall k, (k < 4)%nat -> qR (q_scale d (add one one)) k = 2 * qR d k.
Proof.
  intros L A1 H. assert (E : forall k, (k < 4)%nat -> qcomp k (q_scale d (add one one)) = mul (qcomp k d) (add one one)).
  { intros k Hk. destruct d as [x0 (x1&x2&x3&[]) fa]. destruct k as [ |[ |[ |[ |k]]]]; [reflexivity..|lia]. }
  assert (V : forall k, (k < 4)%nat -> is_finite (qcomp k (q_scale d (add one one))) = true /\ qR (q_scale d (add one one)) k = 2 * qR d k).
  { intros k Hk. unfold qR. rewrite E by exact Hk. destruct (H k Hk) as [F B]. apply dbl_val; [exact F| ]. unfold qR in B. lra. }
  split; [ |intros k Hk; apply V, Hk]. intros k Hk. destruct (V k Hk) as [F Q]. split; [exact F| ]. rewrite Q, Rabs_mult, (Rabs_pos_eq 2) by lra. apply Rmult_le_compat_l; [lra|apply H, Hk].
Qed.

(** what [get_translation] computes from the two parts *)
Lemma get_tr (D : DualQuaternion fl) A : 1 <= A -> 400 * A <= bpow radix2 emax -> q_le 2 (dq_real D) -> nrm 4 (qR (dq_real D)) <= 102 / 100 -> q_le A (dq_dual D) ->
  (forall i, (i < 3)%nat -> is_finite (vfun (dq_get_translation D) i) = true) /\
  nrm 3 (fun i => B2R (vfun (dq_get_translation D) i) - tv (qR (dq_real D)) (qR (dq_dual D)) i) <= 164 / 10 * uro * nrm 4 (qR (dq_dual D)) + 9 * eta.
Proof.
  intros A1 L Ha Na Hd. set (a := dq_real D) in *. set (d := dq_dual D) in *.
  destruct (dbl_q d A ltac:(lra) A1 Hd) as [H2 V2]. destruct (conj_val a 2 Ha) as [Hc Vc].
  destruct (q_mul_gen _ _ (2 * A) 2 ltac:(lra) ltac:(lra) ltac:(lra) H2 Hc) as [F E].
  set (m := q_mul (q_scale d (add one one)) (q_conj a)) in *.
  assert (Ev : forall i, (i < 3)%nat -> vfun (dq_get_translation D) i = qcomp (S i) m) by reflexivity.
  split; [intros i Hi; rewrite Ev by exact Hi; apply F; lia| ].
  assert (N2 : nrm 4 (qR (q_scale d (add one one))) = 2 * nrm 4 (qR d)).
  { rewrite (nrm_ext 4 _ (fun k => 2 * qR d k)) by exact V2. rewrite nrm_scal, Rabs_pos_eq by lra. reflexivity. }
  assert (Nc : nrm 4 (qR (q_conj a)) = nrm 4 (qR a)) by (rewrite (nrm_ext 4 _ (cj (qR a))) by exact Vc; apply nrm_cj).
  rewrite N2, Nc in E.
  rewrite (nrm_ext 3 _ (fun i => (fun k => qR m k - hp (qR (q_scale d (add one one))) (qR (q_conj a)) k) (S i))).
  - eapply Rle_trans; [apply (nrm_tail (fun k => qR m k - hp (qR (q_scale d (add one one))) (qR (q_conj a)) k))| ]. eapply Rle_trans; [exact E| ].
    apply Rplus_le_compat_r. pose proof (uro_pos (prec := prec)) as P. pose proof (nrm_pos 4 (qR d)) as Nd. set (nd := nrm 4 (qR d)) in *. set (na := nrm 4 (qR a)) in *.
    assert (0 <= uro * nd) by (apply Rmult_le_pos; lra). assert (uro * nd * na <= uro * nd * (102 / 100)) by (apply Rmult_le_compat_l; lra). lra.
  - intros i Hi. rewrite Ev by exact Hi. change (B2R (qcomp (S i) m)) with (qR m (S i)). f_equal. unfold tv. rewrite (hp_ext _ (fun k => 2 * qR d k) _ (cj (qR a)) (S i) V2 Vc).
    unfold hp. destruct i as [ |[ |[ |i]]]; [ | | |lia]; lazy [add sub mul zero R_Num hamilton h4 comp4]; ring.
Qed.

(** the dual part made from a rotation and a translation *)
Lemma dual_part dl (a : Quaternion fl) (t : V3 fl) b : near_unit dl a -> dl <= / 220 -> 1 <= b -> 1000 * b <= bpow radix2 emax ->
  (forall i, (i < 3)%nat -> is_finite (vfun t i) = true /\ Rabs (B2R (vfun t i)) <= b) ->
  let e := q_mul (q_scale (q_new_imag t) (div one (add one one))) a in let V := fun i => B2R (vfun t i) in
  q_le b e /\ nrm 4 (fun k => qR e k - / 2 * hp (emb V) (qR a) k) <= 404 / 100 * uro * nrm 3 V + 12 * eta /\ nrm 4 (qR e) <= 505 / 1000 * nrm 3 V + 12 * eta.
Proof.
  intros Ha D B1 L Ht e V. destruct (near_le dl a Ha D) as [Qa Na]. set (h := q_scale (q_new_imag t) (div one (add one one))) in *.
  pose proof (uro_small Hp11) as U. pose proof (uro_pos (prec := prec)) as P. pose proof (eta_tiny Hp11 He4) as T. assert (E0 : 0 <= eta) by apply eta_pos.
  assert (Fz : is_finite (zero : fl) = true) by reflexivity.
  assert (Hh : forall k, (k < 4)%nat -> is_finite (qcomp k h) = true /\ Rabs (qR h k - / 2 * emb V k) <= eta).
  { intros k Hk. destruct k as [ |i].
    - destruct (hlf_val (zero : fl) Fz) as (F & E & _). split; [exact F|exact E].
    - destruct (hlf_val (vfun t i) (proj1 (Ht i ltac:(lia)))) as (F & E & _).
      assert (Ei : qcomp (S i) h = mul (vfun t i) (div one (add one one))) by (destruct t as (t0&t1&t2&[]); destruct i as [ |[ |[ |i]]]; [reflexivity..|lia]).
      unfold qR. rewrite Ei. split; [exact F|exact E]. }
  assert (Nd : nrm 4 (fun k => qR h k - / 2 * emb V k) <= 2 * eta).
  { eapply Rle_trans; [apply (nrm_bound 4 _ eta E0); intros k Hk; apply Hh, Hk| ]. replace (INR 4) with (2 * 2) by (cbn; lra). rewrite sqrt_square by lra. lra. }
  assert (Nh : nrm 4 (qR h) <= / 2 * nrm 3 V + 2 * eta).
  { rewrite (nrm_ext 4 _ (fun k => (qR h k - / 2 * emb V k) + / 2 * emb V k)) by (intros; ring). eapply Rle_trans; [apply (nrm_plus 4 (fun k => qR h k - / 2 * emb V k) (fun k => / 2 * emb V k))| ].
    rewrite nrm_scal, nrm_emb, Rabs_pos_eq by lra. lra. }
  assert (Qh : q_le b h).
  { intros k Hk. destruct (Hh k Hk) as [F E]. split; [exact F| ]. assert (Rabs (emb V k) <= b) by (destruct k as [ |i]; cbn [emb]; [rewrite Rabs_R0; lra|apply Ht; lia]).
    replace (qR h k) with ((qR h k - / 2 * emb V k) + / 2 * emb V k) by ring. eapply Rle_trans; [apply Rabs_triang| ]. rewrite (Rabs_mult (/ 2)), (Rabs_pos_eq (/ 2)) by lra. lra. }
  destruct (q_mul_gen h a b 2 B1 ltac:(lra) ltac:(lra) Qh Qa) as [F E]. fold e in F, E.
  set (n := nrm 3 V) in *. assert (N0 : 0 <= n) by apply nrm_pos. set (na := nrm 4 (qR a)) in *. assert (Na0 : 0 <= na) by apply nrm_pos. set (nh := nrm 4 (qR h)) in *. assert (Nh0 : 0 <= nh) by apply nrm_pos.
  assert (un : 0 <= uro * n <= / 2048 * n) by (split; [apply Rmult_le_pos; lra|apply Rmult_le_compat_r; lra]).
  assert (ue : 0 <= uro * eta <= / 2048 * eta) by (split; [apply Rmult_le_pos; lra|apply Rmult_le_compat_r; lra]).
  assert (G1 : nh * na <= (/ 2 * n + 2 * eta) * (1005 / 1000)) by (apply Rmult_le_compat; lra).
  assert (G2 : uro * (nh * na) <= uro * ((/ 2 * n + 2 * eta) * (1005 / 1000))) by (apply Rmult_le_compat_l; lra).
  assert (G : nrm 4 (fun k => qR e k - / 2 * hp (emb V) (qR a) k) <= 404 / 100 * uro * n + 12 * eta).
  { rewrite (nrm_ext 4 _ (fun k => (qR e k - hp (qR h) (qR a) k) + hp (fun k => qR h k - / 2 * emb V k) (qR a) k)).
    - eapply Rle_trans; [apply (nrm_plus 4 (fun k => qR e k - hp (qR h) (qR a) k) (fun k => hp (fun k => qR h k - / 2 * emb V k) (qR a) k))| ].
      rewrite (nrm_ext 4 (fun k => hp (fun k => qR h k - / 2 * emb V k) (qR a) k) (hp (fun k => qR h k - / 2 * emb V k) (qR a))) by reflexivity. rewrite hp_norm. fold na.
      assert (G3 : nrm 4 (fun k => qR h k - / 2 * emb V k) * na <= 2 * eta * (1005 / 1000)) by (apply Rmult_le_compat; [apply nrm_pos|lra..]).
      eapply Rle_trans; [apply Rplus_le_compat; [exact E|exact G3]| ]. lra.
    - intros k Hk. unfold hp. destruct k as [ |[ |[ |[ |k]]]]; [ | | | |lia]; lazy [add sub mul zero R_Num hamilton h4 comp4]; ring. }
  assert (Ne : nrm 4 (qR e) <= 505 / 1000 * n + 12 * eta).
  { rewrite (nrm_ext 4 _ (fun k => (qR e k - / 2 * hp (emb V) (qR a) k) + / 2 * hp (emb V) (qR a) k)) by (intros; ring).
    eapply Rle_trans; [apply (nrm_plus 4 (fun k => qR e k - / 2 * hp (emb V) (qR a) k) (fun k => / 2 * hp (emb V) (qR a) k))| ].
    rewrite (nrm_scal 4 (/ 2) (hp (emb V) (qR a))), hp_norm, nrm_emb, (Rabs_pos_eq (/ 2)) by lra. fold n na.
    assert (n * na <= n * (1005 / 1000)) by (apply Rmult_le_compat_l; lra). lra. }
  split; [ |split; [exact G|exact Ne]]. intros k Hk. split; [apply F, Hk| ]. eapply Rle_trans; [exact (comp_nrm 4 (qR e) k Hk)| ]. eapply Rle_trans; [exact Ne| ].
  assert (n <= 17321 / 10000 * b).
  { unfold n. eapply Rle_trans; [apply (nrm_bound 3 V b ltac:(lra)); intros i Hi; apply Ht, Hi| ]. apply Rmult_le_compat_r; [lra| ].
    replace (INR 3) with 3 by (cbn; lra). rewrite <- (sqrt_square (17321 / 10000)) by lra. apply sqrt_le_1_alt. lra. }
  lra.
Qed.

(** the motion made from a rotation and a translation *)
Lemma rot_trans_parts rot (t : V3 fl) D : dq_new_from_rot_trans rot t = Ok D ->
  dq_dual D = q_mul (q_scale (q_new_imag t) (div one (add one one))) (dq_real D) /\ dq_normalized D = true.
Proof.
  unfold dq_new_from_rot_trans. cbv zeta. destruct (q_normalize rot) as [r| ]; cbn [unwrap bind]; [ |discriminate]. intros E. injection E as <-. split; reflexivity.
Qed.

Lemma big12 : exists b, b = bpow radix2 (emax - 12) /\ 1 <= b /\ bpow radix2 emax = 4096 * b.
Proof.
  exists (bpow radix2 (emax - 12)). split; [reflexivity|split].
  - change 1 with (bpow radix2 0). apply bpow_le. lia.
  - replace emax with (12 + (emax - 12))%Z at 1 by ring. rewrite bpow_plus. reflexivity.
Qed.

Lemma tr_core dl (t : V3 fl) D : dq_dual D = q_mul (q_scale (q_new_imag t) (div one (add one one))) (dq_real D) -> near_unit dl (dq_real D) -> dl <= / 220 ->
  (forall i, (i < 3)%nat -> is_finite (vfun t i) = true /\ Rabs (B2R (vfun t i)) <= bpow radix2 (emax - 12)) ->
  (forall i, (i < 3)%nat -> is_finite (vfun (dq_get_translation D) i) = true) /\
  nrm 3 (fun i => B2R (vfun (dq_get_translation D) i) - B2R (vfun t i)) <= (201 / 100 * dl + 17 * uro) * nrm 3 (fun i => B2R (vfun t i)) + 35 * eta.
Proof.
  intros Hdual Ha Hd Ht. destruct big12 as (b & Eb & B1 & BE). rewrite <- Eb in Ht.
  pose proof (near_sq dl (dq_real D) Ha ltac:(lra)) as Sq. destruct (near_le dl _ Ha Hd) as [Qa Na].
  destruct (dual_part dl (dq_real D) t b Ha Hd B1 ltac:(lra) Ht) as (Qe & Ge & Ne). rewrite <- Hdual in Qe, Ge, Ne.
  destruct (get_tr D b B1 ltac:(lra) Qa ltac:(lra) Qe) as [F E]. split; [exact F| ].
  pose proof (uro_small Hp11) as U. pose proof (uro_pos (prec := prec)) as P. pose proof (eta_tiny Hp11 He4) as T. assert (E0 : 0 <= eta) by apply eta_pos.
  set (V := fun i => B2R (vfun t i)) in *. set (a := qR (dq_real D)) in *. set (d := qR (dq_dual D)) in *. set (g := fun i => B2R (vfun (dq_get_translation D) i)) in *.
  change (nrm 3 (fun i => g i - tv a d i) <= 164 / 10 * uro * nrm 4 d + 9 * eta) in E. change (nrm 3 (fun i => g i - V i) <= (201 / 100 * dl + 17 * uro) * nrm 3 V + 35 * eta). clearbody g a d V.
  rewrite (nrm_ext 3 _ (fun i => (g i - tv a d i) + (2 * hp (fun k => d k - / 2 * hp (emb V) a k) (cj a) (S i) + (sq_sum 4 a - 1) * V i))).
  - eapply Rle_trans; [apply (nrm_plus 3 (fun i => g i - tv a d i) (fun i => 2 * hp (fun k => d k - / 2 * hp (emb V) a k) (cj a) (S i) + (sq_sum 4 a - 1) * V i))| ].
    eapply Rle_trans; [apply Rplus_le_compat; [exact E|apply (nrm_plus 3 (fun i => 2 * hp (fun k => d k - / 2 * hp (emb V) a k) (cj a) (S i)) (fun i => (sq_sum 4 a - 1) * V i))]| ].
    rewrite (nrm_scal 3 (sq_sum 4 a - 1) V). pose proof (nrm3_tail2 (hp (fun k => d k - / 2 * hp (emb V) a k) (cj a)) 2 ltac:(lra)) as K. rewrite hp_norm, nrm_cj in K.
    set (n := nrm 3 V) in *. assert (N0 : 0 <= n) by apply nrm_pos. set (na := nrm 4 a) in *. assert (Na0 : 0 <= na) by apply nrm_pos. set (nd := nrm 4 d) in *. assert (Nd0 : 0 <= nd) by apply nrm_pos.
    set (w := nrm 4 (fun k => d k - / 2 * hp (emb V) a k)) in *. assert (W0 : 0 <= w) by apply nrm_pos.
    assert (un : 0 <= uro * n <= / 2048 * n) by (split; [apply Rmult_le_pos; lra|apply Rmult_le_compat_r; lra]).
    assert (ue : 0 <= uro * eta <= / 2048 * eta) by (split; [apply Rmult_le_pos; lra|apply Rmult_le_compat_r; lra]).
    assert (K1 : w * na <= (404 / 100 * uro * n + 12 * eta) * (1005 / 1000)) by (apply Rmult_le_compat; lra).
    assert (K2 : uro * nd <= uro * (505 / 1000 * n + 12 * eta)) by (apply Rmult_le_compat_l; lra).
    assert (K3 : Rabs (sq_sum 4 a - 1) * n <= 201 / 100 * dl * n) by (apply Rmult_le_compat_r; lra). lra.
  - intros i Hi. pose proof (tv_rot a V i Hi) as Q. rewrite Rmult_minus_distr_r, <- Q, Rmult_1_l. unfold tv.
    assert (Hs : hp (fun k => d k - / 2 * hp (emb V) a k) (cj a) (S i) = hp d (cj a) (S i) - hp (fun k => / 2 * hp (emb V) a k) (cj a) (S i)) by apply hp_sub. rewrite Hs. ring.
Qed.

Lemma c94_translation : forall dl rot (t : V3 fl) D, dq_new_from_rot_trans rot t = Ok D -> near_unit dl (dq_real D) -> dl <= / 220 ->
  (forall i, (i < 3)%nat -> is_finite (vfun t i) = true /\ Rabs (B2R (vfun t i)) <= bpow radix2 (emax - 12)) ->
  (forall i, (i < 3)%nat -> is_finite (vfun (dq_get_translation D) i) = true) /\
  nrm 3 (fun i => B2R (vfun (dq_get_translation D) i) - B2R (vfun t i)) <= (201 / 100 * dl + 17 * uro) * nrm 3 (fun i => B2R (vfun t i)) + 35 * eta.
Proof. intros dl rot t D ED. apply tr_core. apply (rot_trans_parts rot t D ED). Qed.

Lemma c94_translation_array : forall dl (w x y z : fl) (t0 t1 t2 : fl), let t := [| t0; t1; t2 |] in let D := dq_new_from_array [| w; x; y; z; t0; t1; t2 |] in
  near_unit dl (q_new_from w x y z) -> dl <= / 220 ->
  (forall i, (i < 3)%nat -> is_finite (vfun t i) = true /\ Rabs (B2R (vfun t i)) <= bpow radix2 (emax - 12)) ->
  dq_real D = q_new_from w x y z /\ (forall i, (i < 3)%nat -> is_finite (vfun (dq_get_translation D) i) = true) /\
  nrm 3 (fun i => B2R (vfun (dq_get_translation D) i) - B2R (vfun t i)) <= (201 / 100 * dl + 17 * uro) * nrm 3 (fun i => B2R (vfun t i)) + 35 * eta.
Proof. intros dl w x y z t0 t1 t2 t D N Hd Ht. split; [reflexivity| ]. apply tr_core; [reflexivity|exact N|exact Hd|exact Ht]. Qed.

Lemma rot_trans_near rot (t : V3 fl) D : dq_new_from_rot_trans rot t = Ok D -> normalized rot = false -> is_finite (q_norm2 rot) = true -> near_unit (9 * uro) (dq_real D).
Proof.
  intros ED Nf F. unfold dq_new_from_rot_trans in ED. cbv zeta in ED. destruct (q_normalize rot) as [r| ] eqn:En; cbn [unwrap bind] in ED; [ |discriminate]. injection ED as <-.
  exact (c91_normalize_near Hp11 He4 rot r Nf F En).
Qed.

(** a rotation that is normalized on the way *)
Lemma c94_translation_normalized : forall rot (t : V3 fl) D, dq_new_from_rot_trans rot t = Ok D -> normalized rot = false -> is_finite (q_norm2 rot) = true ->
  (forall i, (i < 3)%nat -> is_finite (vfun t i) = true /\ Rabs (B2R (vfun t i)) <= bpow radix2 (emax - 12)) ->
  (forall i, (i < 3)%nat -> is_finite (vfun (dq_get_translation D) i) = true) /\
  nrm 3 (fun i => B2R (vfun (dq_get_translation D) i) - B2R (vfun t i)) <= 36 * uro * nrm 3 (fun i => B2R (vfun t i)) + 35 * eta.
Proof.
  intros rot t D ED Nf F Ht. pose proof (uro_small Hp11) as U. pose proof (uro_pos (prec := prec)) as P.
  pose proof (rot_trans_near rot t D ED Nf F) as N.
  destruct (c94_translation (9 * uro) rot t D ED N ltac:(lra) Ht) as [G1 G2]. split; [exact G1| ]. eapply Rle_trans; [exact G2| ]. apply Rplus_le_compat_r, Rmult_le_compat_r; [apply nrm_pos|lra].
Qed.

(** ** products *)
Lemma step_size (a d : Quaternion fl) b T0 (m : Quaternion fl) X : 0 <= T0 -> 1 <= b -> nrm 4 (qR a) <= 1005 / 1000 -> q_le b d -> nrm 4 (qR d) <= 505 / 1000 * T0 + 12 * eta ->
  (forall k, (k < 4)%nat -> is_finite (qcomp k m) = true) -> nrm 4 X = nrm 4 (qR a) * nrm 4 (qR d) ->
  nrm 4 (fun k => qR m k - X k) <= 803 / 100 * uro * (nrm 4 (qR a) * nrm 4 (qR d)) + 9 * eta ->
  q_le (3 * b) m /\ nrm 4 (fun k => qR m k - X k) <= 408 / 100 * uro * T0 + 91 / 10 * eta /\ nrm 4 (qR m) <= 512 / 1000 * T0 + 22 * eta.
Proof.
  intros T00 B1 Na Qd Nd F EX E.
  pose proof (uro_small Hp11) as U. pose proof (uro_pos (prec := prec)) as P. pose proof (eta_tiny Hp11 He4) as T. assert (E0 : 0 <= eta) by apply eta_pos.
  assert (Nb : nrm 4 (qR d) <= 2 * b).
  { eapply Rle_trans; [apply (nrm_bound 4 _ b ltac:(lra)); intros k Hk; apply Qd, Hk| ]. replace (INR 4) with (2 * 2) by (cbn; lra). rewrite sqrt_square by lra. lra. }
  set (na := nrm 4 (qR a)) in *. set (nd := nrm 4 (qR d)) in *. assert (Na0 : 0 <= na) by apply nrm_pos. assert (Nd0 : 0 <= nd) by apply nrm_pos.
  assert (G : na * nd <= 1005 / 1000 * nd) by (apply Rmult_le_compat_r; lra). assert (G0 : 0 <= na * nd) by (apply Rmult_le_pos; lra). set (q := na * nd) in *.
  assert (uq : 0 <= uro * q <= / 2048 * q) by (split; [apply Rmult_le_pos; lra|apply Rmult_le_compat_r; lra]).
  assert (Nm : nrm 4 (qR m) <= q + (803 / 100 * uro * q + 9 * eta)).
  { rewrite (nrm_ext 4 _ (fun k => X k + (qR m k - X k))) by (intros; ring). eapply Rle_trans; [apply (nrm_plus 4 X (fun k => qR m k - X k))|lra]. }
  assert (uq2 : uro * q <= uro * (1005 / 1000 * (505 / 1000 * T0 + 12 * eta))) by (apply Rmult_le_compat_l; lra).
  assert (ut : 0 <= uro * T0 <= / 2048 * T0) by (split; [apply Rmult_le_pos; lra|apply Rmult_le_compat_r; lra]).
  assert (ue : 0 <= uro * eta <= / 2048 * eta) by (split; [apply Rmult_le_pos; lra|apply Rmult_le_compat_r; lra]).
  split; [ |split; [lra|lra]]. intros k Hk. split; [apply F, Hk| ]. eapply Rle_trans; [exact (comp_nrm 4 (qR m) k Hk)|lra].
Qed.

Lemma mul_parts (D1 D2 : DualQuaternion fl) b T1 T2 : 1 <= b -> bpow radix2 emax = 4096 * b -> 0 <= T1 -> 0 <= T2 ->
  q_le 2 (dq_real D1) -> nrm 4 (qR (dq_real D1)) <= 1005 / 1000 -> q_le 2 (dq_real D2) -> nrm 4 (qR (dq_real D2)) <= 1005 / 1000 ->
  q_le b (dq_dual D1) -> nrm 4 (qR (dq_dual D1)) <= 505 / 1000 * T1 + 12 * eta -> q_le b (dq_dual D2) -> nrm 4 (qR (dq_dual D2)) <= 505 / 1000 * T2 + 12 * eta ->
  let P := dq_mul D1 D2 in
  let X := fun k => hp (qR (dq_real D1)) (qR (dq_dual D2)) k + hp (qR (dq_dual D1)) (qR (dq_real D2)) k in
  q_le 2 (dq_real P) /\ nrm 4 (fun k => qR (dq_real P) k - hp (qR (dq_real D1)) (qR (dq_real D2)) k) <= 82 / 10 * uro /\ nrm 4 (qR (dq_real P)) <= 1015 / 1000 /\
  q_le (5 * b) (dq_dual P) /\ nrm 4 (fun k => qR (dq_dual P) k - X k) <= 46 / 10 * uro * (T1 + T2) + 19 * eta /\ nrm 4 (qR (dq_dual P)) <= 52 / 100 * (T1 + T2) + 45 * eta.
Proof.
  intros B1 BE T10 T20 Qa1 Na1 Qa2 Na2 Qd1 Nd1 Qd2 Nd2 P X.
  pose proof (uro_small Hp11) as U. pose proof (uro_pos (prec := prec)) as P0. pose proof (eta_tiny Hp11 He4) as T. assert (E0 : 0 <= eta) by apply eta_pos.
  destruct D1 as [a1 d1 f1], D2 as [a2 d2 f2]. cbn [dq_real dq_dual q_real_ q_dual_] in *.
  set (m12 := q_mul a1 d2). set (m21 := q_mul d1 a2).
  destruct (q_mul_gen a1 a2 2 2 ltac:(lra) ltac:(lra) ltac:(lra) Qa1 Qa2) as [Fp Ep].
  destruct (q_mul_gen a1 d2 2 b ltac:(lra) ltac:(lra) ltac:(lra) Qa1 Qd2) as [F12 E12]. destruct (q_mul_gen d1 a2 b 2 ltac:(lra) ltac:(lra) ltac:(lra) Qd1 Qa2) as [F21 E21].
  fold m12 in F12, E12. fold m21 in F21, E21.
  destruct (step_size a1 d2 b T2 m12 (hp (qR a1) (qR d2)) T20 B1 Na1 Qd2 Nd2 F12 (hp_norm _ _) E12) as (Q12 & G12 & N12).
  destruct (step_size a2 d1 b T1 m21 (hp (qR d1) (qR a2)) T10 B1 Na2 Qd1 Nd1 F21 ltac:(rewrite hp_norm; ring) ltac:(rewrite (Rmult_comm (nrm 4 (qR a2))); exact E21)) as (Q21 & G21 & N21).
  destruct (q_add_gen m12 m21 (3 * b) ltac:(lra) ltac:(lra) Q12 Q21) as [Fs Es].
  change (dq_real P) with (q_mul a1 a2). change (dq_dual P) with (q_add m12 m21). unfold X. clear X P.
  set (X1 := hp (qR a1) (qR d2)) in *. set (X2 := hp (qR d1) (qR a2)) in *.
  assert (u1 : 0 <= uro * T1 <= / 2048 * T1) by (split; [apply Rmult_le_pos; lra|apply Rmult_le_compat_r; lra]).
  assert (u2 : 0 <= uro * T2 <= / 2048 * T2) by (split; [apply Rmult_le_pos; lra|apply Rmult_le_compat_r; lra]).
  assert (ue : 0 <= uro * eta <= / 2048 * eta) by (split; [apply Rmult_le_pos; lra|apply Rmult_le_compat_r; lra]).
  assert (uN : uro * (nrm 4 (qR m12) + nrm 4 (qR m21)) <= uro * (512 / 1000 * (T1 + T2) + 44 * eta)) by (apply Rmult_le_compat_l; lra).
  assert (Gp : nrm 4 (fun k => qR (q_mul a1 a2) k - hp (qR a1) (qR a2) k) <= 82 / 10 * uro).
  { eapply Rle_trans; [exact Ep| ]. pose proof (nrm_pos 4 (qR a1)). pose proof (nrm_pos 4 (qR a2)). assert (nrm 4 (qR a1) * nrm 4 (qR a2) <= 1005 / 1000 * (1005 / 1000)) by (apply Rmult_le_compat; lra).
    assert (uro * (nrm 4 (qR a1) * nrm 4 (qR a2)) <= uro * (1005 / 1000 * (1005 / 1000))) by (apply Rmult_le_compat_l; lra). lra. }
  assert (Np : nrm 4 (qR (q_mul a1 a2)) <= 1015 / 1000).
  { rewrite (nrm_ext 4 _ (fun k => hp (qR a1) (qR a2) k + (qR (q_mul a1 a2) k - hp (qR a1) (qR a2) k))) by (intros; ring).
    eapply Rle_trans; [apply (nrm_plus 4 (hp (qR a1) (qR a2)) (fun k => qR (q_mul a1 a2) k - hp (qR a1) (qR a2) k))| ]. rewrite hp_norm.
    pose proof (nrm_pos 4 (qR a1)). pose proof (nrm_pos 4 (qR a2)). assert (nrm 4 (qR a1) * nrm 4 (qR a2) <= 1005 / 1000 * (1005 / 1000)) by (apply Rmult_le_compat; lra). lra. }
  assert (Ns : nrm 4 (qR (q_add m12 m21)) <= (1 + uro) * (nrm 4 (qR m12) + nrm 4 (qR m21))).
  { rewrite (nrm_ext 4 _ (fun k => (qR m12 k + qR m21 k) + (qR (q_add m12 m21) k - (qR m12 k + qR m21 k)))) by (intros; ring).
    eapply Rle_trans; [apply (nrm_plus 4 (fun k => qR m12 k + qR m21 k) (fun k => qR (q_add m12 m21) k - (qR m12 k + qR m21 k)))| ]. pose proof (nrm_plus 4 (qR m12) (qR m21)). lra. }
  split; [ |split; [exact Gp|split; [exact Np|split; [ |split]]]].
  - intros k Hk. split; [apply Fp, Hk| ]. eapply Rle_trans; [exact (comp_nrm 4 (qR (q_mul a1 a2)) k Hk)|lra].
  - intros k Hk. split; [apply Fs, Hk| ].
    assert (Ek : Rabs (qR (q_add m12 m21) k) <= Rabs (qR m12 k + qR m21 k) + uro * Rabs (qR m12 k + qR m21 k)).
    { assert (Ea : qcomp k (q_add m12 m21) = add (qcomp k m12) (qcomp k m21)).
      { clear - Hk. destruct m12 as [x0 (x1&x2&x3&[]) fa], m21 as [y0 (y1&y2&y3&[]) fb]. destruct k as [ |[ |[ |[ |k]]]]; [reflexivity..|lia]. }
      pose proof (Fs k Hk) as F. unfold qR. rewrite Ea in F |- *. pose proof (plus_rel (qcomp k m12) (qcomp k m21) F) as R'. set (z := B2R (qcomp k m12) + B2R (qcomp k m21)) in *.
      change (add (qcomp k m12) (qcomp k m21)) with (Bplus mode_NE (qcomp k m12) (qcomp k m21)). set (y := B2R (Bplus _ _ _)) in *. replace y with (z + (y - z)) by ring. eapply Rle_trans; [apply Rabs_triang|lra]. }
    pose proof (Q12 k Hk) as [_ C1]. pose proof (Q21 k Hk) as [_ C2]. pose proof (comp_nrm 4 (qR m12) k Hk) as C1'. pose proof (comp_nrm 4 (qR m21) k Hk) as C2'.
    assert (Cb : forall x : Quaternion fl, q_le b x -> nrm 4 (qR x) <= 2 * b).
    { intros x Hx. eapply Rle_trans; [apply (nrm_bound 4 _ b ltac:(lra)); intros j Hj; apply Hx, Hj| ]. replace (INR 4) with (2 * 2) by (cbn; lra). rewrite sqrt_square by lra. lra. }
    assert (M12 : nrm 4 (qR m12) <= 21 / 10 * b).
    { rewrite (nrm_ext 4 _ (fun k => X1 k + (qR m12 k - X1 k))) by (intros; ring). eapply Rle_trans; [apply (nrm_plus 4 X1 (fun k => qR m12 k - X1 k))| ]. unfold X1 at 1. rewrite hp_norm.
      pose proof (Cb d2 Qd2). pose proof (nrm_pos 4 (qR a1)). pose proof (nrm_pos 4 (qR d2)). assert (G : nrm 4 (qR a1) * nrm 4 (qR d2) <= 1005 / 1000 * (2 * b)) by (apply Rmult_le_compat; lra).
      assert (0 <= nrm 4 (qR a1) * nrm 4 (qR d2)) by (apply Rmult_le_pos; lra). set (q := nrm 4 (qR a1) * nrm 4 (qR d2)) in *.
      assert (uro * q <= / 2048 * q) by (apply Rmult_le_compat_r; lra). lra. }
    assert (M21 : nrm 4 (qR m21) <= 21 / 10 * b).
    { rewrite (nrm_ext 4 _ (fun k => X2 k + (qR m21 k - X2 k))) by (intros; ring). eapply Rle_trans; [apply (nrm_plus 4 X2 (fun k => qR m21 k - X2 k))| ]. unfold X2 at 1. rewrite hp_norm.
      pose proof (Cb d1 Qd1). pose proof (nrm_pos 4 (qR a2)). pose proof (nrm_pos 4 (qR d1)). assert (G : nrm 4 (qR d1) * nrm 4 (qR a2) <= 2 * b * (1005 / 1000)) by (apply Rmult_le_compat; lra).
      assert (0 <= nrm 4 (qR d1) * nrm 4 (qR a2)) by (apply Rmult_le_pos; lra). set (q := nrm 4 (qR d1) * nrm 4 (qR a2)) in *.
      assert (uro * q <= / 2048 * q) by (apply Rmult_le_compat_r; lra). lra. }
    pose proof (Rabs_triang (qR m12 k) (qR m21 k)). set (z := Rabs (qR m12 k + qR m21 k)) in *. assert (0 <= z) by apply Rabs_pos. assert (uro * z <= / 2048 * z) by (apply Rmult_le_compat_r; lra). lra.
  - rewrite (nrm_ext 4 _ (fun k => (qR (q_add m12 m21) k - (qR m12 k + qR m21 k)) + ((qR m12 k - X1 k) + (qR m21 k - X2 k)))) by (intros; ring).
    eapply Rle_trans; [apply (nrm_plus 4 (fun k => qR (q_add m12 m21) k - (qR m12 k + qR m21 k)) (fun k => (qR m12 k - X1 k) + (qR m21 k - X2 k)))| ].
    pose proof (nrm_plus 4 (fun k => qR m12 k - X1 k) (fun k => qR m21 k - X2 k)) as Q. cbv beta in Q. lra.
  - lra.
Qed.

(** composing two motions adds the rotated second translation to the first *)
Lemma c94_compose : forall dl rot1 (t1 : V3 fl) D1 rot2 (t2 : V3 fl) D2, dq_new_from_rot_trans rot1 t1 = Ok D1 -> dq_new_from_rot_trans rot2 t2 = Ok D2 ->
  near_unit dl (dq_real D1) -> near_unit dl (dq_real D2) -> dl <= / 220 ->
  (forall i, (i < 3)%nat -> is_finite (vfun t1 i) = true /\ Rabs (B2R (vfun t1 i)) <= bpow radix2 (emax - 12)) ->
  (forall i, (i < 3)%nat -> is_finite (vfun t2 i) = true /\ Rabs (B2R (vfun t2 i)) <= bpow radix2 (emax - 12)) ->
  let g := dq_get_translation (dq_mul D1 D2) in
  let V1 := fun i => B2R (vfun t1 i) in let V2 := fun i => B2R (vfun t2 i) in
  (forall i, (i < 3)%nat -> is_finite (vfun g i) = true) /\
  nrm 3 (fun i => B2R (vfun g i) - (sand (qR (dq_real D1)) V2 i + V1 i)) <= (41 / 10 * dl + 35 * uro) * (nrm 3 V1 + nrm 3 V2) + 100 * eta.
Proof.
  intros dl rot1 t1 D1 rot2 t2 D2 ED1 ED2 Ha1 Ha2 Hd Ht1 Ht2 g V1 V2. destruct big12 as (b & Eb & B1 & BE). rewrite <- Eb in Ht1, Ht2.
  destruct (rot_trans_parts rot1 t1 D1 ED1) as [Hdu1 _]. destruct (rot_trans_parts rot2 t2 D2 ED2) as [Hdu2 _].
  pose proof (near_sq dl (dq_real D1) Ha1 ltac:(lra)) as Sq1. pose proof (near_sq dl (dq_real D2) Ha2 ltac:(lra)) as Sq2.
  destruct (near_le dl _ Ha1 Hd) as [Qa1 Na1]. destruct (near_le dl _ Ha2 Hd) as [Qa2 Na2].
  destruct (dual_part dl (dq_real D1) t1 b Ha1 Hd B1 ltac:(lra) Ht1) as (Qe1 & Ge1 & Ne1). rewrite <- Hdu1 in Qe1, Ge1, Ne1.
  destruct (dual_part dl (dq_real D2) t2 b Ha2 Hd B1 ltac:(lra) Ht2) as (Qe2 & Ge2 & Ne2). rewrite <- Hdu2 in Qe2, Ge2, Ne2.
  fold V1 in Ge1, Ne1. fold V2 in Ge2, Ne2. assert (N1 : 0 <= nrm 3 V1) by apply nrm_pos. assert (N2 : 0 <= nrm 3 V2) by apply nrm_pos.
  destruct (mul_parts D1 D2 b (nrm 3 V1) (nrm 3 V2) B1 BE N1 N2 Qa1 Na1 Qa2 Na2 Qe1 Ne1 Qe2 Ne2) as (Qp & Gp & Np & Qpd & Gpd & Npd). cbv zeta in Qp, Gp, Np, Qpd, Gpd, Npd.
  destruct (get_tr (dq_mul D1 D2) (5 * b) ltac:(lra) ltac:(lra) Qp ltac:(lra) Qpd) as [F E]. split; [exact F| ].
  pose proof (uro_small Hp11) as U. pose proof (uro_pos (prec := prec)) as P. pose proof (eta_tiny Hp11 He4) as T. assert (E0 : 0 <= eta) by apply eta_pos.
  assert (D0 : 0 <= dl) by (eapply Rle_trans; [apply Rabs_pos|apply Ha1]).
  set (p := qR (dq_real (dq_mul D1 D2))) in *. set (pd := qR (dq_dual (dq_mul D1 D2))) in *. set (a1 := qR (dq_real D1)) in *. set (a2 := qR (dq_real D2)) in *. set (d1 := qR (dq_dual D1)) in *. set (d2 := qR (dq_dual D2)) in *.
  set (G := fun i => B2R (vfun g i)) in *. change (nrm 3 (fun i => G i - tv p pd i) <= 164 / 10 * uro * nrm 4 pd + 9 * eta) in E.
  change (nrm 3 (fun i => G i - (sand a1 V2 i + V1 i)) <= (41 / 10 * dl + 35 * uro) * (nrm 3 V1 + nrm 3 V2) + 100 * eta).
  clearbody G p pd a1 a2 d1 d2 V1 V2. clear - E Gp Np Gpd Npd Ge1 Ne1 Ge2 Ne2 Na1 Na2 Sq1 Sq2 N1 N2 U P T E0 D0 Hd.
  set (X := fun k => hp a1 d2 k + hp d1 a2 k) in *. set (Y := hp a1 a2) in *. set (g1 := fun k => d1 k - / 2 * hp (emb V1) a1 k) in *. set (g2 := fun k => d2 k - / 2 * hp (emb V2) a2 k) in *.
  set (H := fun k => hp a1 g2 k + hp g1 a2 k).
  set (z1 := fun i => 2 * hp (fun k => pd k - X k) (cj p) (S i)). set (z2 := fun i => 2 * hp X (cj (fun k => p k - Y k)) (S i)). set (z3 := fun i => 2 * hp H (cj Y) (S i)).
  set (z4 := fun i => (sq_sum 4 a2 - 1) * sand a1 V2 i). set (z5 := fun i => (sq_sum 4 a1 * sq_sum 4 a2 - 1) * V1 i).
  rewrite (nrm_ext 3 _ (fun i => (G i - tv p pd i) + (z1 i + (z2 i + (z3 i + (z4 i + z5 i)))))).
  - pose proof (nrm_plus 3 (fun i => G i - tv p pd i) (fun i => z1 i + (z2 i + (z3 i + (z4 i + z5 i))))) as Q1. pose proof (nrm_plus 3 z1 (fun i => z2 i + (z3 i + (z4 i + z5 i)))) as Q2.
    pose proof (nrm_plus 3 z2 (fun i => z3 i + (z4 i + z5 i))) as Q3. pose proof (nrm_plus 3 z3 (fun i => z4 i + z5 i)) as Q4. pose proof (nrm_plus 3 z4 z5) as Q5. cbv beta in Q1, Q2, Q3, Q4, Q5.
    assert (NY : nrm 4 Y = nrm 4 a1 * nrm 4 a2) by apply hp_norm.
    pose proof (nrm_pos 4 a1) as A10. pose proof (nrm_pos 4 a2) as A20. pose proof (nrm_pos 4 d1) as D10. pose proof (nrm_pos 4 d2) as D20. pose proof (nrm_pos 4 p) as Pp. pose proof (nrm_pos 4 pd) as Ppd.
    set (n1 := nrm 3 V1) in *. set (n2 := nrm 3 V2) in *.
    assert (u1 : 0 <= uro * n1 <= / 2048 * n1) by (split; [apply Rmult_le_pos; lra|apply Rmult_le_compat_r; lra]).
    assert (u2 : 0 <= uro * n2 <= / 2048 * n2) by (split; [apply Rmult_le_pos; lra|apply Rmult_le_compat_r; lra]).
    assert (ue : 0 <= uro * eta <= / 2048 * eta) by (split; [apply Rmult_le_pos; lra|apply Rmult_le_compat_r; lra]).
    assert (NX : nrm 4 X <= 508 / 1000 * (n1 + n2) + 25 * eta).
    { pose proof (nrm_plus 4 (hp a1 d2) (hp d1 a2)) as Q. cbv beta in Q. change (nrm 4 X <= nrm 4 (hp a1 d2) + nrm 4 (hp d1 a2)) in Q. rewrite !hp_norm in Q.
      assert (nrm 4 a1 * nrm 4 d2 <= 1005 / 1000 * (505 / 1000 * n2 + 12 * eta)) by (apply Rmult_le_compat; lra).
      assert (nrm 4 d1 * nrm 4 a2 <= (505 / 1000 * n1 + 12 * eta) * (1005 / 1000)) by (apply Rmult_le_compat; lra). lra. }
    assert (NH : nrm 4 H <= 1005 / 1000 * (404 / 100 * uro * (n1 + n2) + 24 * eta)).
    { pose proof (nrm_plus 4 (hp a1 g2) (hp g1 a2)) as Q. cbv beta in Q. change (nrm 4 H <= nrm 4 (hp a1 g2) + nrm 4 (hp g1 a2)) in Q. rewrite !hp_norm in Q.
      assert (nrm 4 a1 * nrm 4 g2 <= 1005 / 1000 * (404 / 100 * uro * n2 + 12 * eta)) by (apply Rmult_le_compat; try lra; apply nrm_pos).
      assert (nrm 4 g1 * nrm 4 a2 <= (404 / 100 * uro * n1 + 12 * eta) * (1005 / 1000)) by (apply Rmult_le_compat; try lra; apply nrm_pos). lra. }
    assert (Y1 : nrm 4 Y <= 1011 / 1000) by (rewrite NY; apply Rle_trans with (1005 / 1000 * (1005 / 1000)); [apply Rmult_le_compat; lra|lra]).
    assert (Z1 : nrm 3 z1 <= 2 * ((46 / 10 * uro * (n1 + n2) + 19 * eta) * (1015 / 1000))).
    { eapply Rle_trans; [apply (nrm3_tail2 (hp (fun k => pd k - X k) (cj p)) 2); lra| ]. rewrite hp_norm, nrm_cj. apply Rmult_le_compat_l; [lra| ]. apply Rmult_le_compat; first [apply nrm_pos|assumption|lra]. }
    assert (Z2 : nrm 3 z2 <= 2 * ((508 / 1000 * (n1 + n2) + 25 * eta) * (82 / 10 * uro))).
    { eapply Rle_trans; [apply (nrm3_tail2 (hp X (cj (fun k => p k - Y k))) 2); lra| ]. rewrite hp_norm, nrm_cj. apply Rmult_le_compat_l; [lra| ]. apply Rmult_le_compat; first [apply nrm_pos|assumption|lra]. }
    assert (Z3 : nrm 3 z3 <= 2 * (1005 / 1000 * (404 / 100 * uro * (n1 + n2) + 24 * eta) * (1011 / 1000))).
    { eapply Rle_trans; [apply (nrm3_tail2 (hp H (cj Y)) 2); lra| ]. rewrite hp_norm, nrm_cj. apply Rmult_le_compat_l; [lra| ]. apply Rmult_le_compat; first [apply nrm_pos|assumption|lra]. }
    assert (dn1 : 0 <= dl * n1) by (apply Rmult_le_pos; lra). assert (dn2 : 0 <= dl * n2) by (apply Rmult_le_pos; lra).
    pose proof (sq_sum_pos 4 a1) as S10. pose proof (sq_sum_pos 4 a2) as S20.
    assert (S1 : sq_sum 4 a1 <= 1010 / 1000) by (apply Rabs_le_inv in Sq1; lra). 
    assert (Z4 : nrm 3 z4 <= 201 / 100 * dl * (1010 / 1000 * n2)).
    { unfold z4. rewrite (nrm_scal 3 (sq_sum 4 a2 - 1) (sand a1 V2)), sand_norm. fold n2. apply Rmult_le_compat; [apply Rabs_pos|apply Rmult_le_pos; lra|exact Sq2|apply Rmult_le_compat_r; lra]. }
    assert (Z5 : nrm 3 z5 <= (201 / 100 * dl * (1010 / 1000) + 201 / 100 * dl) * n1).
    { unfold z5. rewrite (nrm_scal 3 (sq_sum 4 a1 * sq_sum 4 a2 - 1) V1). fold n1. apply Rmult_le_compat_r; [lra| ].
      replace (sq_sum 4 a1 * sq_sum 4 a2 - 1) with ((sq_sum 4 a2 - 1) * sq_sum 4 a1 + (sq_sum 4 a1 - 1)) by ring. eapply Rle_trans; [apply Rabs_triang| ].
      apply Rplus_le_compat; [ |exact Sq1]. rewrite Rabs_mult, (Rabs_pos_eq (sq_sum 4 a1)) by lra. apply Rmult_le_compat; try lra. apply Rabs_pos. }
    assert (Q6 : uro * nrm 4 pd <= uro * (52 / 100 * (n1 + n2) + 45 * eta)) by (apply Rmult_le_compat_l; lra).
    lra.
  - intros i Hi. pose proof (tv_compose a1 a2 V1 V2 i Hi) as Q. unfold z1, z2, z3, z4, z5, H, X, Y, g1, g2, tv in *. rewrite !Rmult_minus_distr_r, !Rmult_1_l.
    assert (Q' : sq_sum 4 a1 * sq_sum 4 a2 * V1 i = 2 * hp (fun k => / 2 * hp a1 (hp (emb V2) a2) k + / 2 * hp (hp (emb V1) a1) a2 k) (cj (hp a1 a2)) (S i) - sq_sum 4 a2 * sand a1 V2 i) by lra. rewrite Q'. clear Q Q'.
    assert (Ec : forall k, hp a1 (fun k => d2 k - / 2 * hp (emb V2) a2 k) k + hp (fun k => d1 k - / 2 * hp (emb V1) a1 k) a2 k = hp a1 d2 k + hp d1 a2 k - (/ 2 * hp a1 (hp (emb V2) a2) k + / 2 * hp (hp (emb V1) a1) a2 k)).
    { intros k. set (w2 := hp (emb V2) a2). set (w1 := hp (emb V1) a1). clearbody w1 w2. unfold hp.
      destruct k as [ |[ |[ |k]]]; lazy [add sub mul zero R_Num hamilton h4 comp4]; ring. }
    rewrite (hp_ext _ (fun k => (fun k => hp a1 d2 k + hp d1 a2 k) k - (fun k => / 2 * hp a1 (hp (emb V2) a2) k + / 2 * hp (hp (emb V1) a1) a2 k) k) _ (cj (hp a1 a2)) (S i) (fun k _ => Ec k) (fun k _ => eq_refl)).
    rewrite (hp_sub (fun k => hp a1 d2 k + hp d1 a2 k)). cbv beta. rewrite (hp_sub pd (fun k => hp a1 d2 k + hp d1 a2 k)).
    assert (Ej : hp (fun k => hp a1 d2 k + hp d1 a2 k) (cj (fun k => p k - hp a1 a2 k)) (S i) = hp (fun k => hp a1 d2 k + hp d1 a2 k) (cj p) (S i) - hp (fun k => hp a1 d2 k + hp d1 a2 k) (cj (hp a1 a2)) (S i)).
    { set (x := fun k => hp a1 d2 k + hp d1 a2 k). set (y := hp a1 a2). clearbody x y. destruct i as [ |[ |[ |i]]]; [ | | |lia]; open3; ring. }
    rewrite Ej. ring.
Qed.

(** ** inverses *)
Lemma conj_parts (D : DualQuaternion fl) A B : q_le A (dq_real D) -> q_le B (dq_dual D) ->
  q_le A (dq_real (dq_conj D)) /\ q_le B (dq_dual (dq_conj D)) /\ (forall k, (k < 4)%nat -> qR (dq_real (dq_conj D)) k = cj (qR (dq_real D)) k) /\ (forall k, (k < 4)%nat -> qR (dq_dual (dq_conj D)) k = cj (qR (dq_dual D)) k).
Proof.
  intros HA HB. destruct (conj_val (dq_real D) A HA) as [Q1 V1]. destruct (conj_val (dq_dual D) B HB) as [Q2 V2].
  split; [exact Q1|split; [exact Q2|split; [exact V1|exact V2]]].
Qed.

Lemma sq_diff A c : (c < 4)%nat -> hp A (cj A) c = match c with 0%nat => sq_sum 4 A | _ => 0 end /\ hp (cj A) A c = match c with 0%nat => sq_sum 4 A | _ => 0 end.
Proof. intros Hc. destruct c as [ |[ |[ |[ |c]]]]; [ | | | |lia]; open3; split; ring. Qed.

Definition e0 (k : nat) : R := match k with 0%nat => 1 | _ => 0 end.
Lemma nrm_e0 c : nrm 4 (fun k => c * e0 k) = Rabs c.
Proof. rewrite (nrm_scal 4 c e0). replace (nrm 4 e0) with 1; [ring| ]. unfold nrm. replace (sq_sum 4 e0) with 1 by (unfold sq_sum, e0; cbn [sumn]; lazy [add zero R_Num]; ring). symmetry. apply sqrt_1. Qed.

Lemma c94_inverse : forall dl rot (t : V3 fl) D, dq_new_from_rot_trans rot t = Ok D -> near_unit dl (dq_real D) -> dl <= / 220 ->
  (forall i, (i < 3)%nat -> is_finite (vfun t i) = true /\ Rabs (B2R (vfun t i)) <= bpow radix2 (emax - 12)) ->
  exists I, dq_inverse D = Ok I /\ forall P, P = dq_mul D I \/ P = dq_mul I D ->
  (forall k, (k < 4)%nat -> is_finite (qcomp k (dq_real P)) = true /\ is_finite (qcomp k (dq_dual P)) = true) /\
  nrm 4 (fun k => qR (dq_real P) k - e0 k) <= 201 / 100 * dl + 82 / 10 * uro /\
  nrm 4 (qR (dq_dual P)) <= 18 * uro * nrm 3 (fun i => B2R (vfun t i)) + 44 * eta.
Proof.
  intros dl rot t D ED Ha Hd Ht. destruct big12 as (b & Eb & B1 & BE). rewrite <- Eb in Ht. destruct (rot_trans_parts rot t D ED) as [Hdual Hf].
  exists (dq_conj D). split; [unfold dq_inverse; rewrite Hf; reflexivity| ].
  pose proof (near_sq dl (dq_real D) Ha ltac:(lra)) as Sq. destruct (near_le dl _ Ha Hd) as [Qa Na].
  destruct (dual_part dl (dq_real D) t b Ha Hd B1 ltac:(lra) Ht) as (Qe & Ge & Ne). rewrite <- Hdual in Qe, Ge, Ne.
  destruct (conj_parts D 2 b Qa Qe) as (Qca & Qce & Va & Ve).
  assert (Nca : nrm 4 (qR (dq_real (dq_conj D))) = nrm 4 (qR (dq_real D))) by (rewrite (nrm_ext 4 _ (cj (qR (dq_real D)))) by exact Va; apply nrm_cj).
  assert (Nce : nrm 4 (qR (dq_dual (dq_conj D))) = nrm 4 (qR (dq_dual D))) by (rewrite (nrm_ext 4 _ (cj (qR (dq_dual D)))) by exact Ve; apply nrm_cj).
  set (V := fun i => B2R (vfun t i)) in *. assert (N0 : 0 <= nrm 3 V) by apply nrm_pos.
  pose proof (uro_small Hp11) as U. pose proof (uro_pos (prec := prec)) as P0. pose proof (eta_tiny Hp11 He4) as T. assert (E0 : 0 <= eta) by apply eta_pos.
  assert (K : exists X Y, (forall k, (k < 4)%nat -> X k = sq_sum 4 (qR (dq_real D)) * e0 k) /\ nrm 4 Y <= 2 * (1005 / 1000 * (404 / 100 * uro * nrm 3 V + 12 * eta)) /\
    forall P, P = dq_mul D (dq_conj D) ->
    q_le 2 (dq_real P) /\ nrm 4 (fun k => qR (dq_real P) k - X k) <= 82 / 10 * uro /\ q_le (5 * b) (dq_dual P) /\ nrm 4 (fun k => qR (dq_dual P) k - Y k) <= 46 / 10 * uro * (nrm 3 V + nrm 3 V) + 19 * eta).
  { set (a := qR (dq_real D)) in *. set (d := qR (dq_dual D)) in *. set (g := fun k => d k - / 2 * hp (emb V) a k) in *.
    exists (hp a (cj a)), (fun k => hp a (cj g) k + hp g (cj a) k). split; [ |split].
    - intros k Hk. rewrite (proj1 (sq_diff a k Hk)). destruct k; cbn [e0]; ring.
    - eapply Rle_trans; [apply (nrm_plus 4 (hp a (cj g)) (hp g (cj a)))| ]. rewrite !hp_norm, !nrm_cj. pose proof (nrm_pos 4 a). pose proof (nrm_pos 4 g).
      assert (nrm 4 a * nrm 4 g <= 1005 / 1000 * (404 / 100 * uro * nrm 3 V + 12 * eta)) by (apply Rmult_le_compat; lra). lra.
    - intros P ->. destruct (mul_parts D (dq_conj D) b (nrm 3 V) (nrm 3 V) B1 BE N0 N0 Qa Na Qca ltac:(rewrite Nca; exact Na) Qe Ne Qce ltac:(rewrite Nce; exact Ne)) as (Qp & Gp & _ & Qpd & Gpd & _).
      cbv zeta in Gp, Gpd, Qp, Qpd. fold a in Gp, Gpd. fold d in Gpd. split; [exact Qp|split; [ |split; [exact Qpd| ]]].
      + rewrite (nrm_ext 4 _ (fun k => qR (dq_real (dq_mul D (dq_conj D))) k - hp a (qR (dq_real (dq_conj D))) k)); [exact Gp| ]. intros k Hk. f_equal. apply hp_ext; [reflexivity|intros j Hj; symmetry; apply Va, Hj].
      + rewrite (nrm_ext 4 _ (fun k => qR (dq_dual (dq_mul D (dq_conj D))) k - (hp a (qR (dq_dual (dq_conj D))) k + hp d (qR (dq_real (dq_conj D))) k))); [exact Gpd| ]. intros k Hk. f_equal.
        rewrite (hp_ext a a (qR (dq_dual (dq_conj D))) (cj d) k (fun _ _ => eq_refl) Ve), (hp_ext d d (qR (dq_real (dq_conj D))) (cj a) k (fun _ _ => eq_refl) Va).
        unfold g. clearbody a d. clear - Hk. destruct k as [ |[ |[ |[ |k]]]]; [ | | | |lia]; open3; field. }
  assert (K' : exists X Y, (forall k, (k < 4)%nat -> X k = sq_sum 4 (qR (dq_real D)) * e0 k) /\ nrm 4 Y <= 2 * (1005 / 1000 * (404 / 100 * uro * nrm 3 V + 12 * eta)) /\
    forall P, P = dq_mul (dq_conj D) D ->
    q_le 2 (dq_real P) /\ nrm 4 (fun k => qR (dq_real P) k - X k) <= 82 / 10 * uro /\ q_le (5 * b) (dq_dual P) /\ nrm 4 (fun k => qR (dq_dual P) k - Y k) <= 46 / 10 * uro * (nrm 3 V + nrm 3 V) + 19 * eta).
  { clear K. set (a := qR (dq_real D)) in *. set (d := qR (dq_dual D)) in *. set (g := fun k => d k - / 2 * hp (emb V) a k) in *.
    exists (hp (cj a) a), (fun k => hp (cj a) g k + hp (cj g) a k). split; [ |split].
    - intros k Hk. rewrite (proj2 (sq_diff a k Hk)). destruct k; cbn [e0]; ring.
    - eapply Rle_trans; [apply (nrm_plus 4 (hp (cj a) g) (hp (cj g) a))| ]. rewrite !hp_norm, !nrm_cj. pose proof (nrm_pos 4 a). pose proof (nrm_pos 4 g).
      assert (nrm 4 a * nrm 4 g <= 1005 / 1000 * (404 / 100 * uro * nrm 3 V + 12 * eta)) by (apply Rmult_le_compat; lra). lra.
    - intros P ->. destruct (mul_parts (dq_conj D) D b (nrm 3 V) (nrm 3 V) B1 BE N0 N0 Qca ltac:(rewrite Nca; exact Na) Qa Na Qce ltac:(rewrite Nce; exact Ne) Qe Ne) as (Qp & Gp & _ & Qpd & Gpd & _).
      cbv zeta in Gp, Gpd, Qp, Qpd. fold a in Gp, Gpd. fold d in Gpd. split; [exact Qp|split; [ |split; [exact Qpd| ]]].
      + rewrite (nrm_ext 4 _ (fun k => qR (dq_real (dq_mul (dq_conj D) D)) k - hp (qR (dq_real (dq_conj D))) a k)); [exact Gp| ]. intros k Hk. f_equal. apply hp_ext; [intros j Hj; symmetry; apply Va, Hj|reflexivity].
      + rewrite (nrm_ext 4 _ (fun k => qR (dq_dual (dq_mul (dq_conj D) D)) k - (hp (qR (dq_real (dq_conj D))) d k + hp (qR (dq_dual (dq_conj D))) a k))); [exact Gpd| ]. intros k Hk. f_equal.
        rewrite (hp_ext (qR (dq_dual (dq_conj D))) (cj d) a a k Ve (fun _ _ => eq_refl)), (hp_ext (qR (dq_real (dq_conj D))) (cj a) d d k Va (fun _ _ => eq_refl)).
        unfold g. clearbody a d. clear - Hk. destruct k as [ |[ |[ |[ |k]]]]; [ | | | |lia]; open3; field. }
  intros P HP.
  assert (KK : exists X Y, (forall k, (k < 4)%nat -> X k = sq_sum 4 (qR (dq_real D)) * e0 k) /\ nrm 4 Y <= 2 * (1005 / 1000 * (404 / 100 * uro * nrm 3 V + 12 * eta)) /\
    q_le 2 (dq_real P) /\ nrm 4 (fun k => qR (dq_real P) k - X k) <= 82 / 10 * uro /\ q_le (5 * b) (dq_dual P) /\ nrm 4 (fun k => qR (dq_dual P) k - Y k) <= 46 / 10 * uro * (nrm 3 V + nrm 3 V) + 19 * eta).
  { destruct HP as [-> | ->]; [destruct K as (X & Y & K1 & K2 & K3)|destruct K' as (X & Y & K1 & K2 & K3)]; exists X, Y; (split; [exact K1|split; [exact K2|apply K3; reflexivity]]). }
  destruct KK as (X & Y & K1 & K2 & Qp & Gp & Qpd & Gpd). clear K K' HP.
  split; [intros k Hk; split; [apply Qp, Hk|apply Qpd, Hk]|split].
  - rewrite (nrm_ext 4 _ (fun k => (sq_sum 4 (qR (dq_real D)) - 1) * e0 k + (qR (dq_real P) k - X k))).
    + eapply Rle_trans; [apply (nrm_plus 4 (fun k => (sq_sum 4 (qR (dq_real D)) - 1) * e0 k) (fun k => qR (dq_real P) k - X k))| ]. rewrite nrm_e0. lra.
    + intros k Hk. rewrite K1 by exact Hk. ring.
  - rewrite (nrm_ext 4 _ (fun k => (qR (dq_dual P) k - Y k) + Y k)) by (intros; ring). eapply Rle_trans; [apply (nrm_plus 4 (fun k => qR (dq_dual P) k - Y k) Y)| ].
    assert (0 <= uro * nrm 3 V) by (apply Rmult_le_pos; lra). lra.
Qed.

(** ** pure translations *)
Definition pv (x : fl) (r : R) : Prop := is_finite x = true /\ B2R x = r.
Lemma pv_mul (x y : fl) r s z : pv x r -> pv y s -> r * s = z -> generic_format radix2 (FLT_exp (3 - emax - prec) prec) z -> Rabs z < bpow radix2 emax -> pv (mul x y) z.
Proof.
  intros [Fx Ex] [Fy Ey] Ez G L. pose proof (Bmult_correct prec emax Hp He mode_NE x y) as C. rewrite Ex, Ey, Ez in C. cbn [round_mode] in C. rewrite fe_eq, round_generic in C; [ |apply valid_rnd_N|exact G].
  rewrite Rlt_bool_true in C by exact L. destruct C as (C1 & C2 & _). rewrite Fx, Fy in C2. split; [exact C2|exact C1].
Qed.
Lemma pv_add (x y : fl) r s z : pv x r -> pv y s -> r + s = z -> generic_format radix2 (FLT_exp (3 - emax - prec) prec) z -> Rabs z < bpow radix2 emax -> pv (add x y) z.
Proof.
  intros [Fx Ex] [Fy Ey] Ez G L. pose proof (Bplus_correct prec emax Hp He mode_NE x y Fx Fy) as C. rewrite Ex, Ey, Ez in C. cbn [round_mode] in C. rewrite fe_eq, round_generic in C; [ |apply valid_rnd_N|exact G].
  rewrite Rlt_bool_true in C by exact L. destruct C as (C1 & C2 & _). split; [exact C2|exact C1].
Qed.
Lemma pv_sub (x y : fl) r s z : pv x r -> pv y s -> r - s = z -> generic_format radix2 (FLT_exp (3 - emax - prec) prec) z -> Rabs z < bpow radix2 emax -> pv (sub x y) z.
Proof.
  intros [Fx Ex] [Fy Ey] Ez G L. pose proof (Bminus_correct prec emax Hp He mode_NE x y Fx Fy) as C. rewrite Ex, Ey, Ez in C. cbn [round_mode] in C. rewrite fe_eq, round_generic in C; [ |apply valid_rnd_N|exact G].
  rewrite Rlt_bool_true in C by exact L. destruct C as (C1 & C2 & _). split; [exact C2|exact C1].
Qed.
Lemma zero_small : Rabs 0 < bpow radix2 emax. Proof. rewrite Rabs_R0. apply bpow_gt_0. Qed.
Lemma pv_mul0 (x y : fl) r : pv x r -> pv y 0 -> pv (mul x y) 0.
Proof. intros Hx Hy. apply (pv_mul x y r 0); [exact Hx|exact Hy|ring|apply generic_format_0|apply zero_small]. Qed.
Lemma pv_0mul (x y : fl) r : pv x 0 -> pv y r -> pv (mul x y) 0.
Proof. intros Hx Hy. apply (pv_mul x y 0 r); [exact Hx|exact Hy|ring|apply generic_format_0|apply zero_small]. Qed.
Lemma pv_fmt (x : fl) r : pv x r -> generic_format radix2 (FLT_exp (3 - emax - prec) prec) r /\ Rabs r < bpow radix2 emax.
Proof. intros [F <-]. split; [apply generic_format_B2R|apply abs_B2R_lt_emax]. Qed.

(** halving by a division *)
Lemma hlf_div (x : fl) : is_finite x = true -> is_finite (div x (add one one)) = true /\ Rabs (B2R (div x (add one one)) - / 2 * B2R x) <= eta /\
  (bpow radix2 (4 - emax) <= Rabs (B2R x) -> B2R (div x (add one one)) = / 2 * B2R x).
Proof.
  intros F. destruct (hlf_val x F) as (FM & E & X). destruct two_val as [F2 V2]. destruct half_val as [Fh Vh].
  destruct (mult_finite _ _ FM) as (_ & _ & VM). rewrite Vh in VM.
  assert (N : B2R (add one one : fl) <> 0) by (rewrite V2; lra). pose proof (Bdiv_correct prec emax Hp He mode_NE x (add one one) N) as C. rewrite V2 in C. cbn [round_mode] in C. rewrite fe_eq in C.
  change (B2R x / 2) with (B2R x * / 2) in C. rewrite <- VM in C. rewrite Rlt_bool_true in C by apply abs_B2R_lt_emax. destruct C as (C1 & C2 & _). rewrite F in C2.
  split; [exact C2| ]. change (div x (add one one)) with (Bdiv mode_NE x (add one one)). rewrite C1. split; [exact E|exact X].
Qed.

Lemma c94_pure_translation : forall t : V3 fl, (forall i, (i < 3)%nat -> is_finite (vfun t i) = true) ->
  forall i, (i < 3)%nat -> is_finite (vfun (dq_get_translation (dq_new_from_translation t)) i) = true /\
  Rabs (B2R (vfun (dq_get_translation (dq_new_from_translation t)) i) - B2R (vfun t i)) <= 2 * eta /\
  (bpow radix2 (4 - emax) <= Rabs (B2R (vfun t i)) -> B2R (vfun (dq_get_translation (dq_new_from_translation t)) i) = B2R (vfun t i)).
Proof.
  intros t Ht. assert (E0 : 0 <= eta) by apply eta_pos. pose proof (eta_tiny Hp11 He4) as T. pose proof (uro_small Hp11) as U.
  assert (H : forall i, (i < 3)%nat -> exists r, pv (mul (div (vfun t i) (add one one)) (add one one)) r /\ Rabs (r - B2R (vfun t i)) <= 2 * eta /\ (bpow radix2 (4 - emax) <= Rabs (B2R (vfun t i)) -> r = B2R (vfun t i))).
  { intros i Hi. destruct (hlf_div (vfun t i) (Ht i Hi)) as (F & E & X). set (y := B2R (vfun t i)) in *. set (h := div (vfun t i) (add one one)) in *.
    assert (L : 2 * Rabs (B2R h) < bpow radix2 emax).
    { destruct (Rle_or_lt (bpow radix2 (4 - emax)) (Rabs y)) as [B|B].
      - rewrite X by exact B. rewrite Rabs_mult, (Rabs_pos_eq (/ 2)) by lra. assert (Rabs y < bpow radix2 emax) by apply abs_B2R_lt_emax. lra.
      - assert (bpow radix2 (4 - emax) <= bpow radix2 0) by (apply bpow_le; lia). assert (bpow radix2 2 <= bpow radix2 emax) by (apply bpow_le; lia). cbn [bpow] in *. change (IZR (Z.pow_pos radix2 2)) with 4 in *.
        assert (Rabs (B2R h) <= eta + / 2 * Rabs y).
        { replace (B2R h) with ((B2R h - / 2 * y) + / 2 * y) by ring. eapply Rle_trans; [apply Rabs_triang| ]. rewrite (Rabs_mult (/ 2)), (Rabs_pos_eq (/ 2)) by lra. lra. }
        lra. }
    destruct (dbl_val h F L) as [F' V']. exists (2 * B2R h). split; [split; assumption|split].
    - replace (2 * B2R h - y) with (2 * (B2R h - / 2 * y)) by field. rewrite Rabs_mult, (Rabs_pos_eq 2) by lra. lra.
    - intros B. rewrite X by exact B. field. }
  destruct (H 0%nat ltac:(lia)) as (r0 & P0 & A0 & X0). destruct (H 1%nat ltac:(lia)) as (r1 & P1 & A1 & X1). destruct (H 2%nat ltac:(lia)) as (r2 & P2 & A2 & X2). clear H Ht.
  assert (Pz : pv (zero : fl) 0) by (split; reflexivity). assert (P1' : pv (one : fl) 1) by (split; [apply is_finite_Bone|apply Bone_correct]).
  assert (Pt : pv (add one one : fl) 2) by exact two_val.
  assert (Pn : pv (neg zero : fl) 0) by (split; [reflexivity|cbn; reflexivity]).
  assert (Pw : pv (mul zero (add one one) : fl) 0) by (apply (pv_0mul _ _ 2); assumption).
  destruct t as (t0&t1&t2&[]). lazy [vfun List.nth alist fst snd] in P0, P1, P2, A0, A1, A2, X0, X1, X2.
  set (h0 := mul (div t0 (add one one)) (add one one)) in *. set (h1 := mul (div t1 (add one one)) (add one one)) in *. set (h2 := mul (div t2 (add one one)) (add one one)) in *.
  set (w := mul zero (add one one) : fl) in *.
  assert (G : forall (x y z : fl) rx ry rz, pv x rx -> pv y ry -> pv z rz -> pv (add (add (mul (neg zero) w) (mul x one)) (sub (mul y (neg zero)) (mul z (neg zero)))) rx).
  { intros x y z rx ry rz Hx Hy Hz. destruct (pv_fmt x rx Hx) as [Gx Lx].
    apply (pv_add _ _ rx 0); [ | |ring|exact Gx|exact Lx].
    - apply (pv_add _ _ 0 rx); [apply (pv_mul0 _ _ 0); assumption| |ring|exact Gx|exact Lx]. apply (pv_mul _ _ rx 1); [exact Hx|exact P1'|ring|exact Gx|exact Lx].
    - apply (pv_sub _ _ 0 0); [apply (pv_mul0 _ _ ry); assumption|apply (pv_mul0 _ _ rz); assumption|ring|apply generic_format_0|apply zero_small]. }
  intros i Hi. destruct i as [ |[ |[ |i]]]; [ | | |lia].
  - destruct (G h0 h1 h2 r0 r1 r2 P0 P1 P2) as [F V]. 
    match goal with |- is_finite ?e = true /\ _ => assert (E : e = add (add (mul (neg zero) w) (mul h0 one)) (sub (mul h1 (neg zero)) (mul h2 (neg zero)))) by reflexivity end.
    rewrite E, V. split; [exact F|split; [exact A0|exact X0]].
  - destruct (G h1 h2 h0 r1 r2 r0 P1 P2 P0) as [F V].
    match goal with |- is_finite ?e = true /\ _ => assert (E : e = add (add (mul (neg zero) w) (mul h1 one)) (sub (mul h2 (neg zero)) (mul h0 (neg zero)))) by reflexivity end.
    rewrite E, V. split; [exact F|split; [exact A1|exact X1]].
  - destruct (G h2 h0 h1 r2 r0 r1 P2 P0 P1) as [F V].
    match goal with |- is_finite ?e = true /\ _ => assert (E : e = add (add (mul (neg zero) w) (mul h2 one)) (sub (mul h0 (neg zero)) (mul h1 (neg zero)))) by reflexivity end.
    rewrite E, V. split; [exact F|split; [exact A2|exact X2]].
Qed.
End F.

#[local] Instance prec53 : Prec_gt_0 53 := eq_refl.
#[local] Instance emax1024 : Prec_lt_emax 53 1024 := eq_refl.
#[local] Notation f64 := (binary_float 53 1024).

(** [is_normalized] may reject the product of two motions made by [new_from_rot_trans] *)
Lemma c94_is_normalized_refuted : forall O : FOracle f64, exists (rot1 rot2 : Quaternion f64) (t : V3 f64) (D1 D2 : DualQuaternion f64),
  dq_new_from_rot_trans rot1 t = Ok D1 /\ dq_new_from_rot_trans rot2 t = Ok D2 /\ dq_is_normalized D1 = true /\ dq_is_normalized D2 = true /\
  dq_is_normalized (dq_new (dq_real D1) (dq_dual D1)) = true /\ dq_is_normalized (dq_new (dq_real D2) (dq_dual D2)) = true /\ dq_is_normalized (dq_mul D1 D2) = false.
Proof.
  intros O. set (rot1 := q_new_from (fofZ 3) (fofZ 0) (fofZ 1) (fofZ 3) : Quaternion f64). set (rot2 := q_new_from (fofZ 1) (fofZ 3) (fofZ 0) (fofZ 3) : Quaternion f64).
  set (t := [| zero; zero; zero |] : V3 f64).
  destruct (dq_new_from_rot_trans rot1 t) as [D1| ] eqn:E1; [ |exfalso; assert (X : match dq_new_from_rot_trans rot1 t with Ok _ => true | _ => false end = true) by (vm_compute; reflexivity); rewrite E1 in X; discriminate].
  destruct (dq_new_from_rot_trans rot2 t) as [D2| ] eqn:E2; [ |exfalso; assert (X : match dq_new_from_rot_trans rot2 t with Ok _ => true | _ => false end = true) by (vm_compute; reflexivity); rewrite E2 in X; discriminate].
  assert (X : match dq_new_from_rot_trans rot1 t, dq_new_from_rot_trans rot2 t with Ok U, Ok W => dq_is_normalized U && dq_is_normalized W && dq_is_normalized (dq_new (dq_real U) (dq_dual U)) && dq_is_normalized (dq_new (dq_real W) (dq_dual W)) && negb (dq_is_normalized (dq_mul U W)) | _, _ => false end = true) by (vm_compute; reflexivity).
  rewrite E1, E2 in X. rewrite !andb_true_iff, negb_true_iff in X. destruct X as ((((X1 & X2) & X3) & X4) & X5).
  exists rot1, rot2, t, D1, D2. split; [exact E1|split; [exact E2|split; [exact X1|split; [exact X2|split; [exact X3|split; [exact X4|exact X5]]]]]].
Qed.

(** a screw motion, its inverse and its square *)
Lemma case_parts : forall O : FOracle f64, exists (rot : Quaternion f64) (t : V3 f64) (D : DualQuaternion f64), dq_new_from_rot_trans rot t = Ok D /\ normalized rot = false /\ is_finite (q_norm2 rot) = true /\
  (forall i, (i < 3)%nat -> is_finite (vfun t i) = true /\ Rabs (B2R (vfun t i)) <= bpow radix2 (1024 - 12)) /\ near_unit (9 * uro (prec := 53)) (dq_real D) /\ 9 * uro (prec := 53) <= / 220 /\ B2R (vfun t 0) = 4.
Proof.
  intros O. set (rot := q_new_from (fofZ 3) (fofZ 0) (fofZ 1) (fofZ 3) : Quaternion f64).
  assert (V : forall z, (-4 <= z <= 4)%Z -> is_finite (fofZ z : f64) = true /\ B2R (fofZ z : f64) = IZR z) by (intros z Hz; apply (fofZ_int (prec := 53) (emax := 1024)); cbn; lia).
  set (t := [| fofZ 4; fofZ 2; fofZ 3 |] : V3 f64). assert (T0 : vfun t 0 = fofZ 4) by reflexivity. assert (T1 : vfun t 1 = fofZ 2) by reflexivity. assert (T2 : vfun t 2 = fofZ 3) by reflexivity.
  destruct (dq_new_from_rot_trans rot t) as [D| ] eqn:E1; [ |exfalso; assert (X : match dq_new_from_rot_trans rot t with Ok _ => true | _ => false end = true) by (vm_compute; reflexivity); rewrite E1 in X; discriminate].
  exists rot, t, D. assert (F : is_finite (q_norm2 rot) = true) by (vm_compute; reflexivity).
  split; [exact E1|split; [reflexivity|split; [exact F|split; [ |split; [ |split]]]]].
  - assert (B : 4 <= bpow radix2 (1024 - 12)) by (change 4 with (bpow radix2 2); apply bpow_le; lia). clearbody t. set (P := bpow radix2 (1024 - 12)) in *. clearbody P.
    assert (G : forall z, (0 <= z <= 4)%Z -> is_finite (fofZ z : f64) = true /\ Rabs (B2R (fofZ z : f64)) <= P).
    { intros z Hz. destruct (V z ltac:(lia)) as [Fz W]. split; [exact Fz| ]. rewrite W. rewrite Rabs_pos_eq by (apply (IZR_le 0); lia). apply Rle_trans with 4; [apply (IZR_le z 4); lia|exact B]. }
    intros i Hi. destruct i as [ |[ |[ |i]]]; [ | | |lia]; rewrite ?T0, ?T1, ?T2; apply G; lia.
  - exact (rot_trans_near (prec := 53) (emax := 1024) ltac:(lia) ltac:(lia) rot t D E1 eq_refl F).
  - unfold FloatFacts.uro. cbn. lra.
  - rewrite T0. apply (proj2 (V 4%Z ltac:(lia))).
Qed.

Example C94_case : forall O : FOracle f64, exists (rot : Quaternion f64) (t : V3 f64) (D I : DualQuaternion f64), dq_new_from_rot_trans rot t = Ok D /\ B2R (vfun t 0) = 4 /\
  nrm 3 (fun i => B2R (vfun (dq_get_translation D) i) - B2R (vfun t i)) <= 36 * uro (prec := 53) * nrm 3 (fun i => B2R (vfun t i)) + 35 * eta (prec := 53) (emax := 1024) /\
  dq_inverse D = Ok I /\ nrm 4 (qR (dq_dual (dq_mul D I))) <= 18 * uro (prec := 53) * nrm 3 (fun i => B2R (vfun t i)) + 44 * eta (prec := 53) (emax := 1024) /\
  nrm 3 (fun i => B2R (vfun (dq_get_translation (dq_mul D D)) i) - (sand (qR (dq_real D)) (fun i => B2R (vfun t i)) i + B2R (vfun t i))) <=
    (41 / 10 * (9 * uro (prec := 53)) + 35 * uro (prec := 53)) * (nrm 3 (fun i => B2R (vfun t i)) + nrm 3 (fun i => B2R (vfun t i))) + 100 * eta (prec := 53) (emax := 1024).
Proof.
  intros O. destruct (case_parts O) as (rot & t & D & E & Nf & F & Ht & N & L & T0).
  destruct (c94_inverse (prec := 53) (emax := 1024) ltac:(lia) ltac:(lia) (9 * uro (prec := 53)) rot t D E N L Ht) as (I & EI & G).
  exists rot, t, D, I. split; [exact E|split; [exact T0|split; [ |split; [exact EI|split]]]].
  - exact (proj2 (c94_translation_normalized (prec := 53) (emax := 1024) ltac:(lia) ltac:(lia) rot t D E Nf F Ht)).
  - exact (proj2 (proj2 (G _ (or_introl eq_refl)))).
  - exact (proj2 (c94_compose (prec := 53) (emax := 1024) ltac:(lia) ltac:(lia) (9 * uro (prec := 53)) rot t D rot t D E E N N L Ht Ht)).
Qed.

Example C94_case_array : forall O : FOracle f64, let D := dq_new_from_array [| one; zero; zero; zero; one; one; one |] : DualQuaternion f64 in
  nrm 3 (fun i => B2R (vfun (dq_get_translation D) i) - B2R (vfun ([| one; one; one |] : V3 f64) i)) <= (201 / 100 * 0 + 17 * uro (prec := 53)) * nrm 3 (fun i => B2R (vfun ([| one; one; one |] : V3 f64) i)) + 35 * eta (prec := 53) (emax := 1024).
Proof.
  intros O. assert (F1 : is_finite (one : f64) = true) by apply is_finite_Bone. assert (V1 : B2R (one : f64) = 1) by apply Bone_correct.
  assert (N : near_unit 0 (q_new_from one zero zero zero : Quaternion f64)).
  { split.
    - intros k Hk. destruct k as [ |[ |[ |[ |k]]]]; [exact F1|reflexivity..|lia].
    - replace (nrm 4 (qR (q_new_from one zero zero zero : Quaternion f64))) with 1; [unfold Rminus; rewrite Rplus_opp_r, Rabs_R0; lra| ].
      set (q := q_new_from one zero zero zero : Quaternion f64). assert (Q0 : qR q 0%nat = 1) by exact V1. assert (Q1 : qR q 1%nat = 0) by reflexivity. assert (Q2 : qR q 2%nat = 0) by reflexivity. assert (Q3 : qR q 3%nat = 0) by reflexivity.
      unfold nrm, sq_sum. cbn [sumn]. rewrite Q0, Q1, Q2, Q3. lazy [add mul zero R_Num]. replace (0 + 1 * 1 + 0 * 0 + 0 * 0 + 0 * 0) with 1 by ring. symmetry. apply sqrt_1. }
  apply (c94_translation_array (prec := 53) (emax := 1024) ltac:(lia) ltac:(lia) 0 one zero zero zero one one one N ltac:(lra)).
  assert (B : 1 <= bpow radix2 (1024 - 12)) by (change 1 with (bpow radix2 0); apply bpow_le; lia). set (P := bpow radix2 (1024 - 12)) in *. clearbody P.
  intros i Hi. assert (Ei : vfun ([| one; one; one |] : V3 f64) i = one) by (destruct i as [ |[ |[ |i]]]; [reflexivity..|lia]). rewrite Ei, V1, Rabs_R1. split; [exact F1|exact B].
Qed.

Example C94_case_pure : forall O : FOracle f64, B2R (vfun (dq_get_translation (dq_new_from_translation ([| fofZ 4; fofZ 2; fofZ 3 |] : V3 f64))) 0) = 4.
Proof.
  intros O. set (t := [| fofZ 4; fofZ 2; fofZ 3 |] : V3 f64).
  destruct (fofZ_int (prec := 53) (emax := 1024) 4 ltac:(cbn; lia)) as [F V]. assert (T0 : vfun t 0 = fofZ 4) by reflexivity.
  assert (Ht : forall i, (i < 3)%nat -> is_finite (vfun t i) = true) by (intros i Hi; destruct i as [ |[ |[ |i]]]; [vm_compute; reflexivity..|lia]).
  destruct (c94_pure_translation (prec := 53) (emax := 1024) ltac:(lia) ltac:(lia) t Ht 0%nat ltac:(lia)) as (_ & _ & X). rewrite X; rewrite T0, V; [reflexivity| ].
  rewrite Rabs_pos_eq by lra. apply Rle_trans with (bpow radix2 2); [apply bpow_le; lia|cbn; lra].
Qed.
