(** * ProofsFloatEuler: Euler angles of float rotation matrices (C98) *)

From Coq Require Import List Arith ZArith Reals Bool Lra Lia.
From Flocq Require Import Core Relative Sterbenz Mult_error IEEE754.BinarySingleNaN.
From Verif Require Import Base Scalar Vec Mat2 Mat3 Mat4 Mat5 Mat6 Slices MatLoops MatOps Quat Transf DualQuat RingDet Spec LoopFacts Entries InstZ InstR RFacts TrigFacts LUFacts QRFacts ProofsRing ProofsQuat ProofsRot ProofsRigid ProofsEuler InstF FloatFacts ProofsFloat ProofsFloat2 ProofsFloatErr ProofsFloatInv ProofsFloatNorm ProofsFloatRot ProofsFloatDrift ProofsFloatRigid ProofsFloatDQ ProofsFloatFromRot ProofsFloatRotH ProofsFloatQR ExpSeries ProofsExp ProofsFloatAngles.
Local Open Scope R_scope.

(** ** lengths and directions of pairs *)
Definition hyp (a b : R) : R := sqrt (a * a + b * b).
Definition pr (a b : R) (k : nat) : R := match k with 0%nat => a | _ => b end.
Lemma hyp_nrm a b : hyp a b = nrm 2 (pr a b).
Proof. unfold hyp, nrm, sq_sum. lazy [sumn add mul zero R_Num pr]. f_equal. ring. Qed.
Lemma hyp_sq a b : hyp a b * hyp a b = a * a + b * b.
Proof. apply sqrt_sqrt. nra. Qed.
Lemma hyp_pos a b : 0 <= hyp a b. Proof. apply sqrt_pos. Qed.
Lemma hyp_le a b t : 0 <= t -> a * a + b * b <= t * t -> hyp a b <= t.
Proof. intros T H. rewrite <- hyp_sq in H. pose proof (hyp_pos a b). nra. Qed.
Lemma hyp_plus a b a' b' : hyp (a + a') (b + b') <= hyp a b + hyp a' b'.
Proof.
  rewrite !hyp_nrm. eapply Rle_trans; [ |apply nrm_plus]. right. apply nrm_ext. intros [ |k] _; reflexivity.
Qed.
Lemma hyp_diff a b a' b' : Rabs (hyp a b - hyp a' b') <= hyp (a - a') (b - b').
Proof.
  rewrite !hyp_nrm. eapply Rle_trans; [apply nrm_diff| ]. right. apply nrm_ext. intros [ |k] _; reflexivity.
Qed.
Lemma hyp_scal c a b : hyp (c * a) (c * b) = Rabs c * hyp a b.
Proof.
  rewrite !hyp_nrm, <- nrm_scal. apply nrm_ext. intros [ |k] _; reflexivity.
Qed.
Lemma hyp_nz a b : 0 < hyp a b -> a <> 0 \/ b <> 0.
Proof. intros H. destruct (Req_dec a 0) as [->|N]; [right|now left]. intros ->. unfold hyp in H. rewrite Rmult_0_l, Rplus_0_l, sqrt_0 in H. lra. Qed.
Lemma hyp_comp a b : Rabs a <= hyp a b /\ Rabs b <= hyp a b.
Proof.
  pose proof (hyp_sq a b). pose proof (hyp_pos a b). split; apply Rabs_le; split; nra.
Qed.
Lemma hyp_box a b e : Rabs a <= e -> Rabs b <= e -> hyp a b <= 14143 / 10000 * e.
Proof.
  intros A B. pose proof (Rabs_pos a). apply hyp_le; [lra| ]. apply Rabs_le_inv in A. apply Rabs_le_inv in B. nra.
Qed.

Lemma dir_diff a b a' b' : 0 < hyp a b -> 0 < hyp a' b' ->
  hyp (a / hyp a b - a' / hyp a' b') (b / hyp a b - b' / hyp a' b') <= 2 * hyp (a - a') (b - b') / hyp a' b'.
Proof.
  intros P P'. pose proof (hyp_diff a b a' b') as D. set (h := hyp a b) in *. set (h' := hyp a' b') in *.
  assert (E : hyp (a / h - a' / h') (b / h - b' / h') = hyp (/ h' * (a - a') + (h' - h) / (h * h') * a) (/ h' * (b - b') + (h' - h) / (h * h') * b)).
  { f_equal; field; lra. }
  rewrite E. eapply Rle_trans; [apply hyp_plus| ]. rewrite !hyp_scal. fold h.
  assert (I : 0 < / h') by now apply Rinv_0_lt_compat.
  replace (Rabs ((h' - h) / (h * h')) * h) with (Rabs (h - h') * / h').
  2:{ unfold Rdiv. rewrite Rabs_mult, Rabs_inv, (Rabs_pos_eq (h * h')) by nra. rewrite (Rabs_minus_sym h' h). field. lra. }
  rewrite (Rabs_pos_eq (/ h')) by lra. unfold Rdiv. set (t := hyp (a - a') (b - b')) in *.
  assert (Rabs (h - h') * / h' <= t * / h') by (apply Rmult_le_compat_r; lra). lra.
Qed.

(** ** rotations about the axes and their products *)
Lemma axis_dst a b t : hyp (cos a - cos b) (sin a - sin b) <= t ->
  dst (mfun (rodrigues ex a)) (mfun (rodrigues ex b)) <= 14143 / 10000 * t /\ dst (mfun (rodrigues ey a)) (mfun (rodrigues ey b)) <= 14143 / 10000 * t /\
  dst (mfun (rodrigues ez a)) (mfun (rodrigues ez b)) <= 14143 / 10000 * t.
Proof.
  intros H. pose proof (hyp_pos (cos a - cos b) (sin a - sin b)) as P. pose proof (hyp_sq (cos a - cos b) (sin a - sin b)) as Q.
  set (h := hyp _ _) in *. clearbody h.
  split; [ |split]; (apply fnorm_le; [lra| ]); unfold fro2, sq_sum; lazy [sumn add mul zero R_Num mfun rodrigues ex ey ez vfun aget alist nth map acons anil ahd atl fst snd];
    set (ca := cos a) in *; set (cb := cos b) in *; set (sa := sin a) in *; set (sb := sin b) in *; clearbody ca cb sa sb.
  all: assert (2 * (h * h) <= 14143 / 10000 * t * (14143 / 10000 * t)) by nra; rewrite Q in *; lra.
Qed.

Lemma mm_orth_dst X X' Y Y' : orthR X' -> orthR Y -> dst (mm X Y) (mm X' Y') <= dst X X' + dst Y Y'.
Proof.
  intros HX HY. unfold dst. set (D := fun i j => X i j - X' i j). set (D' := fun i j => Y i j - Y' i j).
  rewrite (fnorm_ext (fun i j => mm X Y i j - mm X' Y' i j) (fun i j => mm D Y i j + mm X' D' i j)) by (intros; unfold mm, D, D'; ring).
  eapply Rle_trans; [apply fnorm_plus| ]. rewrite fnorm_right, fnorm_left by assumption. lra.
Qed.
Lemma dst_ext X Y X' Y' : (forall i j, (i < 3)%nat -> (j < 3)%nat -> X i j = X' i j) -> (forall i j, (i < 3)%nat -> (j < 3)%nat -> Y i j = Y' i j) -> dst X Y = dst X' Y'.
Proof. intros A B. unfold dst. apply fnorm_ext. intros i j Hi Hj. rewrite A, B by assumption. reflexivity. Qed.

Lemma product_dst y p q y' p' q' ty tp tq : hyp (cos y - cos y') (sin y - sin y') <= ty -> hyp (cos p - cos p') (sin p - sin p') <= tp -> hyp (cos q - cos q') (sin q - sin q') <= tq ->
  dst (mfun (euler_product None y p q)) (mfun (euler_product None y' p' q')) <= 14143 / 10000 * (ty + tp + tq).
Proof.
  intros Hy Hp Hq. unfold euler_product. cbn [seq_axes].
  destruct (axis_dst _ _ _ Hy) as (_ & _ & Dy). destruct (axis_dst _ _ _ Hp) as (_ & Dp & _). destruct (axis_dst _ _ _ Hq) as (Dq & _ & _).
  assert (S1 : SO3 (rodrigues ez y')) by exact (proj2 (proj2 (axis_SO3 y'))). assert (S2 : SO3 (rodrigues ey p')) by exact (proj1 (proj2 (axis_SO3 p'))).
  assert (S3 : SO3 (rodrigues ey p)) by exact (proj1 (proj2 (axis_SO3 p))). assert (S4 : SO3 (rodrigues ex q)) by exact (proj1 (axis_SO3 q)).
  assert (E : forall (A B C : M33 R) i j, (i < 3)%nat -> (j < 3)%nat -> mfun (m33_mul (m33_mul A B) C) i j = mm (mm (mfun A) (mfun B)) (mfun C) i j).
  { intros A B C i j Hi Hj. rewrite mfun_mulR by assumption. unfold mm at 1. rewrite !mfun_mulR by lia. reflexivity. }
  rewrite (dst_ext _ _ _ _ (E _ _ _) (E _ _ _)).
  assert (O12 : orthR (mm (mfun (rodrigues ez y')) (mfun (rodrigues ey p')))).
  { pose proof (SO3_orth _ (SO3_mul R_ring _ _ S1 S2)) as [A B].
    split; intros i j Hi Hj; [rewrite <- (A i j Hi Hj)|rewrite <- (B i j Hi Hj)]; unfold gram, tr; rewrite !mfun_mulR by lia; reflexivity. }
  eapply Rle_trans; [apply mm_orth_dst; [exact O12|apply SO3_orth; exact S4]| ].
  pose proof (mm_orth_dst (mfun (rodrigues ez y)) _ (mfun (rodrigues ey p)) (mfun (rodrigues ey p')) (SO3_orth _ S1) (SO3_orth _ S3)). lra.
Qed.

(** *** the exact rotation from its angles, away from and close to the singularity *)
Lemma exact_pitch (r : M33 R) : SO3 r -> exists p, cos p = cos_pitch r /\ sin p = - mfun r 2 0.
Proof. intros H. exists (pitch_of (K := f64_consts) r). destruct (pitch_trig (K := f64_consts) r H) as (A & B & _). auto. Qed.

Section F.
Context {prec emax : Z} {Hp : Prec_gt_0 prec} {He : Prec_lt_emax prec emax} {O : FOracle (binary_float prec emax)}.
Notation fl := (binary_float prec emax).
Notation uro := (uro (prec := prec)).
Notation eta := (eta (prec := prec) (emax := emax)).
Hypothesis Hp11 : (11 <= prec)%Z.
Hypothesis He4 : (4 * prec <= emax)%Z.

(** the trigonometric functions are accurate to [e] for arguments up to four, the computed [atan2] points in the right direction up to [e],
    and the constant is pi over two up to [e] *)
Definition math_ok (e : R) : Prop :=
  (forall x : fl, is_finite x = true -> Rabs (B2R x) <= 4 -> trig_ok e x) /\
  (forall y x : fl, is_finite y = true -> is_finite x = true -> B2R y <> 0 \/ B2R x <> 0 ->
    is_finite (fatan2 y x) = true /\ Rabs (B2R (fatan2 y x)) <= 4 /\
    Rabs (cos (B2R (fatan2 y x)) - B2R x / sqrt (B2R x * B2R x + B2R y * B2R y)) <= e /\ Rabs (sin (B2R (fatan2 y x)) - B2R y / sqrt (B2R x * B2R x + B2R y * B2R y)) <= e) /\
  is_finite (FRAC_PI_2 : fl) = true /\ Rabs (B2R (FRAC_PI_2 : fl) - PI / 2) <= e.

Lemma math_pos e : math_ok e -> 0 <= e.
Proof. intros (_ & _ & _ & H). pose proof (Rabs_pos (B2R (FRAC_PI_2 : fl) - PI / 2)). lra. Qed.

(** ** the tolerance test *)
Lemma nearly_pair (a b t : fl) : is_finite a = true -> is_finite b = true -> is_finite t = true -> Rabs (B2R a) <= 4 -> 1 <= Rabs (B2R b) <= 4 -> uro <= B2R t ->
  nearly_equal a b t = true -> Rabs (B2R a - B2R b) <= 102 / 100 * B2R t * (Rabs (B2R a) + Rabs (B2R b)).
Proof.
  intros Fa Fb Ft La Lb Lt H. pose proof (uro_small Hp11) as U. pose proof (uro_pos (prec := prec)) as P. pose proof (eta_tiny Hp11 He4) as Et.
  assert (T0 : 0 <= eta) by apply eta_pos.
  pose proof (Rabs_pos (B2R a)) as Pa. pose proof (Rabs_pos (B2R a - B2R b)) as Pd.
  assert (Td : Rabs (B2R a - B2R b) <= Rabs (B2R a) + Rabs (B2R b)).
  { unfold Rminus. eapply Rle_trans; [apply Rabs_triang|rewrite Rabs_Ropp; lra]. }
  destruct (sub_ok Hp11 He4 a b Fa Fb ltac:(lra)) as [Fd Ed].
  destruct (add_ok Hp11 He4 (Babs a) (Babs b)) as [Fs Es].
  { rewrite is_finite_Babs. exact Fa. } { rewrite is_finite_Babs. exact Fb. }
  { rewrite !B2R_Babs, Rabs_pos_eq; lra. }
  rewrite !B2R_Babs in Es. rewrite (Rabs_pos_eq (Rabs (B2R a) + Rabs (B2R b))) in Es by lra.
  set (d := sub a b) in *. set (s := add (Babs a) (Babs b)) in *.
  assert (Dv : Rabs (B2R a - B2R b) * (1 - uro) <= Rabs (B2R d) <= Rabs (B2R a - B2R b) * (1 + uro)).
  { pose proof (Rabs_triang (B2R d) (- (B2R d - (B2R a - B2R b)))) as T1. pose proof (Rabs_triang (B2R d - (B2R a - B2R b)) (B2R a - B2R b)) as T2.
    rewrite Rabs_Ropp in T1. replace (B2R d + - (B2R d - (B2R a - B2R b))) with (B2R a - B2R b) in T1 by ring.
    replace (B2R d - (B2R a - B2R b) + (B2R a - B2R b)) with (B2R d) in T2 by ring. lra. }
  apply Rabs_le_inv in Es.
  unfold nearly_equal in H. cbn [eqb abs ltb zero fmin max_value min_value div F_Num F_Signed F_POrd F_Float] in H. fold d s in H.
  destruct (Beqb a b) eqn:E1.
  { rewrite Beqb_correct in E1 by assumption. destruct (Req_bool_spec (B2R a) (B2R b)) as [E|E]; [ |discriminate].
    rewrite E. unfold Rminus. rewrite Rplus_opp_r, Rabs_R0. assert (0 <= B2R t * (Rabs (B2R b) + Rabs (B2R b))) by (apply Rmult_le_pos; lra). lra. }
  assert (Small : Bltb (Babs d) t = true -> Rabs (B2R a - B2R b) <= 102 / 100 * B2R t * (Rabs (B2R a) + Rabs (B2R b))).
  { intros Q. rewrite Bltb_correct in Q; [ |rewrite is_finite_Babs; exact Fd|exact Ft]. destruct (Rlt_bool_spec (B2R (Babs d)) (B2R t)) as [Q1|Q1]; [ |discriminate].
    rewrite B2R_Babs in Q1. set (z := Rabs (B2R a - B2R b)) in *. clearbody z.
    assert (z * (1 - / 2048) <= z * (1 - uro)) by (apply Rmult_le_compat_l; lra).
    assert (102 / 100 * B2R t * 1 <= 102 / 100 * B2R t * (Rabs (B2R a) + Rabs (B2R b))) by (apply Rmult_le_compat_l; lra). lra. }
  destruct (_ || _ || _)%bool in H; [exact (Small H)| ]. clear Small.
  assert (Sp : 9 / 10 <= B2R s) by (assert (uro * (Rabs (B2R a) + Rabs (B2R b)) <= / 2048 * 8) by (apply Rmult_le_compat; lra); lra).
  assert (Sm : f_min s Bmax_float = s).
  { destruct (max_float_val Hp11) as (FM & NM & VM).
    unfold f_min. replace (is_nan s) with false by (clearbody s; destruct s; [reflexivity..|discriminate Fs|reflexivity]). rewrite NM.
    rewrite Bltb_correct by assumption. rewrite Rlt_bool_false; [reflexivity| ]. rewrite VM.
    assert (B1 : bpow radix2 emax = 2 * bpow radix2 (emax - 1)) by (change 2 with (bpow radix2 1); rewrite <- bpow_plus; f_equal; ring).
    assert (B2 : bpow radix2 (emax - prec) <= bpow radix2 (emax - 1)) by (apply bpow_le; lia).
    assert (B0 : 16 <= bpow radix2 (emax - 1)) by (change 16 with (bpow radix2 4); apply bpow_le; lia).
    assert (uro * (Rabs (B2R a) + Rabs (B2R b)) <= / 2048 * 8) by (apply Rmult_le_compat; lra). lra. }
  rewrite Sm in H. clear Sm.
  destruct (div_error (Babs d) s) as (Fq & e3 & h & L3 & Lh & V3).
  - rewrite is_finite_Babs. exact Fd.
  - lra.
  - rewrite B2R_Babs, Rabs_pos_eq by (apply Rmult_le_pos; [apply Rabs_pos|apply Rlt_le, Rinv_0_lt_compat; lra]).
    apply Rmult_le_reg_r with (B2R s); [lra| ]. unfold Rdiv. rewrite Rmult_assoc, Rinv_l by lra.
    set (n := Rabs (B2R a) + Rabs (B2R b)) in *. assert (uro * n <= / 2048 * n) by (apply Rmult_le_compat_r; lra).
    assert (Rabs (B2R a - B2R b) * (1 + uro) <= n * (1 + / 2048)) by (apply Rmult_le_compat; lra). lra.
  - rewrite Bltb_correct in H by assumption. destruct (Rlt_bool_spec (B2R (Bdiv mode_NE (Babs d) s)) (B2R t)) as [Q|Q]; [ |discriminate].
    rewrite V3, B2R_Babs in Q. clear V3 Fq H. apply Rabs_le_inv in L3. apply Rabs_le_inv in Lh.
    set (n := Rabs (B2R a) + Rabs (B2R b)) in *. set (z := Rabs (B2R a - B2R b)) in *. set (y := Rabs (B2R d) / B2R s) in *.
    assert (Y : Rabs (B2R d) = y * B2R s) by (unfold y; field; lra).
    assert (Y0 : 0 <= y) by (apply Rmult_le_pos; [apply Rabs_pos|apply Rlt_le, Rinv_0_lt_compat; lra]). clearbody y z n.
    set (S := B2R s) in *. set (T := B2R t) in *. clearbody S T. clear - Q Y Y0 Dv Es U P Et T0 L3 Lh Sp Lt Pd Td.
    assert (y * (1 - / 2048) <= y * (1 + e3)) by (apply Rmult_le_compat_l; lra).
    assert (Yb : y <= 1002 / 1000 * T) by lra.
    assert (Hs : S <= n * (1 + / 2048)) by (assert (uro * n <= / 2048 * n) by (apply Rmult_le_compat_r; lra); lra).
    assert (y * S <= 1002 / 1000 * T * (n * (1 + / 2048))) by (apply Rmult_le_compat; lra).
    assert (z * (1 - / 2048) <= z * (1 - uro)) by (apply Rmult_le_compat_l; lra).
    assert (0 <= T * n) by (apply Rmult_le_pos; lra). lra.
Qed.

(** at pi over two, with the tolerance of the source *)
Lemma nearly_half_pi e (p b : fl) (s : R) : is_finite p = true -> Rabs (B2R p) <= 4 -> is_finite b = true -> s * s = 1 -> Rabs (B2R b - s * (PI / 2)) <= e -> e <= / 100 ->
  nearly_equal p b epsilon = true -> Rabs (B2R p - s * (PI / 2)) <= 9 * uro + e.
Proof.
  intros Fp Lp Fb S2 Lb Le H. pose proof (uro_small Hp11) as U. pose proof (uro_pos (prec := prec)) as P.
  destruct (epsilon_val (prec := prec) (emax := emax)) as [Fe Ve]. pose proof PI2_1 as P1. pose proof PI_4 as P4.
  assert (Vu : B2R (epsilon : fl) = 2 * uro) by (rewrite Ve; unfold FloatFacts.uro; lra).
  assert (As : Rabs s = 1) by (assert (E : (s - 1) * (s + 1) = 0) by lra; apply Rmult_integral in E; destruct E as [E|E]; [replace s with 1 by lra; apply Rabs_R1|replace s with (- (1)) by lra; rewrite Rabs_Ropp; apply Rabs_R1]).
  assert (Ah : Rabs (s * (PI / 2)) = PI / 2) by (rewrite Rabs_mult, As, Rmult_1_l; apply Rabs_pos_eq; lra).
  pose proof (Rabs_triang (B2R b - s * (PI / 2)) (s * (PI / 2))) as T1. replace (B2R b - s * (PI / 2) + s * (PI / 2)) with (B2R b) in T1 by ring.
  assert (T2 : Rabs (s * (PI / 2)) <= Rabs (B2R b) + e).
  { replace (s * (PI / 2)) with (B2R b - (B2R b - s * (PI / 2))) at 1 by ring. unfold Rminus at 1. eapply Rle_trans; [apply Rabs_triang|rewrite Rabs_Ropp; lra]. }
  assert (L1 : / 1 <= Rabs (B2R b) <= 202 / 100 \/ Rabs (B2R b) < 1) by lra. 
  assert (PB : 1 <= Rabs (B2R b)).
  { rewrite Ah in T2. assert (3 < PI) by (pose proof PI2_3_2; lra). lra. }
  pose proof (nearly_pair p b epsilon Fp Fb Fe Lp ltac:(lra) ltac:(lra) H) as N. rewrite Vu in N.
  assert (T3 : Rabs (B2R p) <= Rabs (B2R p - B2R b) + Rabs (B2R b)).
  { replace (B2R p) with (B2R p - B2R b + B2R b) at 1 by ring. apply Rabs_triang. }
  assert (T4 : Rabs (B2R p - s * (PI / 2)) <= Rabs (B2R p - B2R b) + Rabs (B2R b - s * (PI / 2))).
  { replace (B2R p - s * (PI / 2)) with ((B2R p - B2R b) + (B2R b - s * (PI / 2))) by ring. apply Rabs_triang. }
  set (z := Rabs (B2R p - B2R b)) in *. assert (Z0 : 0 <= z) by apply Rabs_pos. clearbody z.
  assert (102 / 100 * (2 * uro) * (Rabs (B2R p) + Rabs (B2R b)) <= 102 / 100 * (2 * uro) * (z + 404 / 100)) by (apply Rmult_le_compat_l; lra).
  assert (uro * z <= / 2048 * z) by (apply Rmult_le_compat_r; lra). lra.
Qed.

(** ** the computed pitch *)
Lemma root_ok (x y : fl) : is_finite x = true -> is_finite y = true -> hyp (B2R x) (B2R y) <= 11 / 10 ->
  is_finite (fsqrt (add (mul x x) (mul y y))) = true /\ Rabs (B2R (fsqrt (add (mul x x) (mul y y))) - hyp (B2R x) (B2R y)) <= 35 / 10 * uro.
Proof.
  intros Fx Fy L. pose proof (uro_small Hp11) as U. pose proof (uro_pos (prec := prec)) as P. pose proof (eta_sq Hp11 He4) as Es. pose proof (eta_tiny Hp11 He4) as Et.
  assert (T0 : 0 <= eta) by apply eta_pos.
  destruct (hyp_comp (B2R x) (B2R y)) as [Cx Cy]. pose proof (hyp_pos (B2R x) (B2R y)) as H0. pose proof (hyp_sq (B2R x) (B2R y)) as HS.
  assert (X2 : 0 <= B2R x * B2R x) by nra. assert (Y2 : 0 <= B2R y * B2R y) by nra.
  assert (SB : B2R x * B2R x + B2R y * B2R y <= 121 / 100) by nra.
  destruct (mul_ok Hp11 He4 x x Fx Fx ltac:(rewrite Rabs_pos_eq; lra)) as [F1 E1]. destruct (mul_ok Hp11 He4 y y Fy Fy ltac:(rewrite Rabs_pos_eq; lra)) as [F2 E2].
  rewrite (Rabs_pos_eq (B2R x * B2R x)) in E1 by lra. rewrite (Rabs_pos_eq (B2R y * B2R y)) in E2 by lra.
  assert (Nn : forall z, 0 <= z -> 0 <= round radix2 (FLT_exp (3 - emax - prec) prec) ZnearestE z).
  { intros z Hz. apply round_ge_generic; [apply FLT_exp_valid; exact Hp|apply valid_rnd_N|apply generic_format_0|exact Hz]. }
  assert (A0 : 0 <= B2R (mul x x)) by (destruct (mult_finite x x F1) as (_ & _ & V); change (mul x x) with (Bmult mode_NE x x); rewrite V; apply Nn; lra).
  assert (B0 : 0 <= B2R (mul y y)) by (destruct (mult_finite y y F2) as (_ & _ & V); change (mul y y) with (Bmult mode_NE y y); rewrite V; apply Nn; lra).
  set (A := mul x x) in *. set (B := mul y y) in *. apply Rabs_le_inv in E1. apply Rabs_le_inv in E2.
  assert (UX : uro * (B2R x * B2R x) <= / 2048 * (B2R x * B2R x)) by (apply Rmult_le_compat_r; lra).
  assert (UY : uro * (B2R y * B2R y) <= / 2048 * (B2R y * B2R y)) by (apply Rmult_le_compat_r; lra).
  destruct (add_ok Hp11 He4 A B F1 F2 ltac:(rewrite Rabs_pos_eq; lra)) as [F3 E3]. rewrite (Rabs_pos_eq (B2R A + B2R B)) in E3 by lra.
  assert (C0 : 0 <= B2R (add A B)) by (destruct (plus_finite A B F3) as (_ & _ & V); change (add A B) with (Bplus mode_NE A B); rewrite V; apply Nn; lra).
  set (C := add A B) in *. apply Rabs_le_inv in E3.
  split.
  { change (fsqrt C) with (Bsqrt mode_NE C). destruct (Bsqrt_correct prec emax Hp He mode_NE C) as (_ & Q & _). rewrite Q. clear Q. clearbody C.
    destruct C as [s|s| |s m k Hx]; try discriminate F3; [reflexivity| ]. destruct s; [exfalso|reflexivity]. cbn [B2R cond_Zopp] in C0.
    assert (X : F2R (Defs.Float radix2 (Z.neg m) k) < 0) by (apply F2R_lt_0; cbn; lia). cbn [Z.opp] in C0. lra. }
  destruct (sqrt_round C) as (e4 & L4 & V4). change (fsqrt C) with (Bsqrt mode_NE C). rewrite V4. clear V4. apply Rabs_le_inv in L4.
  assert (UAB : uro * (B2R A + B2R B) <= uro * ((B2R x * B2R x + B2R y * B2R y) * (1 + / 1024) + 2 * eta)) by (apply Rmult_le_compat_l; lra).
  set (h := hyp (B2R x) (B2R y)) in *. rewrite <- HS in SB, UAB.
  assert (EC : Rabs (B2R C - h * h) <= 202 / 100 * uro * (h * h) + 21 / 10 * eta).
  { assert (UE : uro * eta <= / 2048 * eta) by (apply Rmult_le_compat_r; lra). assert (0 <= uro * (h * h)) by nra. rewrite HS. rewrite HS in UAB, H. apply Rabs_le. lra. }
  pose proof (sqrt_sqrt (B2R C) C0) as QC. pose proof (sqrt_pos (B2R C)) as G0. set (g := sqrt (B2R C)) in *. rewrite <- QC in EC.
  clearbody g h. clear - EC G0 H0 L P U Es Et T0 L4.
  assert (D : Rabs (g - h) <= 23 / 10 * uro).
  { destruct (Rle_lt_dec uro h) as [K|K].
    - assert (Q : Rabs (g - h) * h <= Rabs (g * g - h * h)).
      { replace (g * g - h * h) with ((g - h) * (g + h)) by ring. rewrite Rabs_mult, (Rabs_pos_eq (g + h)) by lra. apply Rmult_le_compat_l; [apply Rabs_pos|lra]. }
      apply Rmult_le_reg_r with h; [lra| ]. assert (uro * uro <= uro * h) by (apply Rmult_le_compat_l; lra).
      assert (uro * (h * h) <= uro * (11 / 10 * h)) by (apply Rmult_le_compat_l; [lra|apply Rmult_le_compat_r; lra]). lra.
    - apply Rabs_le_inv in EC. assert (h * h <= uro * uro) by (apply Rmult_le_compat; lra). assert (uro * (h * h) <= / 2048 * (uro * uro)) by (apply Rmult_le_compat; try lra; nra).
      assert (g <= 11 / 10 * uro) by nra. apply Rabs_le. lra. }
  apply Rabs_le_inv in D. assert (Eg : Rabs (g * e4) <= 112 / 100 * uro).
  { rewrite Rabs_mult, (Rabs_pos_eq g) by lra. apply Rmult_le_compat; [lra|apply Rabs_pos|lra|apply Rabs_le; lra]. }
  apply Rabs_le_inv in Eg. apply Rabs_le. lra.
Qed.

(** ** pairs of entries *)
Lemma close_pairs E m (r : M33 R) : close3 E m r -> let d i j := B2R (mfun m i j) - mfun r i j in
  d 0%nat 0%nat * d 0%nat 0%nat + d 1%nat 0%nat * d 1%nat 0%nat + d 2%nat 0%nat * d 2%nat 0%nat <= E * E /\ hyp (d 0%nat 0%nat) (d 1%nat 0%nat) <= E /\ hyp (d 2%nat 2%nat) (d 2%nat 1%nat) <= E /\ hyp (d 0%nat 2%nat) (d 1%nat 2%nat) <= E.
Proof.
  intros C d. pose proof (close_pos _ _ _ C) as E0. destruct C as [_ C]. rewrite close_dst in C. unfold dst in C.
  assert (S : fro2 (fun i j => mR m i j - mfun r i j) <= E * E).
  { rewrite <- fnorm_fro. pose proof (fnorm_pos (fun i j => mR m i j - mfun r i j)). apply Rmult_le_compat; assumption. }
  assert (S' : 0 + (0 + d 0%nat 0%nat * d 0%nat 0%nat + d 0%nat 1%nat * d 0%nat 1%nat + d 0%nat 2%nat * d 0%nat 2%nat) + (0 + d 1%nat 0%nat * d 1%nat 0%nat + d 1%nat 1%nat * d 1%nat 1%nat + d 1%nat 2%nat * d 1%nat 2%nat) + (0 + d 2%nat 0%nat * d 2%nat 0%nat + d 2%nat 1%nat * d 2%nat 1%nat + d 2%nat 2%nat * d 2%nat 2%nat) <= E * E) by exact S. clear S.
  assert (Q : forall i j, 0 <= d i j * d i j) by (intros i j; nra).
  pose proof (Q 0 0)%nat. pose proof (Q 0 1)%nat. pose proof (Q 0 2)%nat. pose proof (Q 1 0)%nat. pose proof (Q 1 1)%nat. pose proof (Q 1 2)%nat.
  pose proof (Q 2 0)%nat. pose proof (Q 2 1)%nat. pose proof (Q 2 2)%nat. clear Q.
  unfold d in *. clear d. split; [lra|split; [ |split]]; (apply hyp_le; [lra|lra]).
Qed.

(** the computed [atan2] of a float pair close to a pair of real numbers *)
Lemma atan_close e (y x : fl) (y' x' t : R) : math_ok e -> is_finite y = true -> is_finite x = true -> hyp (B2R x - x') (B2R y - y') <= t -> t < hyp x' y' ->
  is_finite (fatan2 y x) = true /\ Rabs (B2R (fatan2 y x)) <= 4 /\
  hyp (cos (B2R (fatan2 y x)) - x' / hyp x' y') (sin (B2R (fatan2 y x)) - y' / hyp x' y') <= 2 * t / hyp x' y' + 14143 / 10000 * e.
Proof.
  intros M Fy Fx Ht Hs. pose proof (hyp_diff (B2R x) (B2R y) x' y') as D. apply Rabs_le_inv in D. pose proof (hyp_pos (B2R x - x') (B2R y - y')) as T0.
  assert (P : 0 < hyp (B2R x) (B2R y)) by lra. assert (P' : 0 < hyp x' y') by lra.
  assert (N : B2R y <> 0 \/ B2R x <> 0) by (destruct (hyp_nz _ _ P); auto).
  destruct (proj1 (proj2 M) y x Fy Fx N) as (F & L & C & S). fold (hyp (B2R x) (B2R y)) in C, S. split; [exact F|split; [exact L| ]].
  pose proof (dir_diff (B2R x) (B2R y) x' y' P P') as Q. set (h := hyp (B2R x) (B2R y)) in *. set (h' := hyp x' y') in *. set (a := B2R (fatan2 y x)) in *.
  replace (cos a - x' / h') with ((cos a - B2R x / h) + (B2R x / h - x' / h')) by ring. replace (sin a - y' / h') with ((sin a - B2R y / h) + (B2R y / h - y' / h')) by ring.
  eapply Rle_trans; [apply hyp_plus| ]. pose proof (hyp_box _ _ _ C S) as B.
  assert (2 * hyp (B2R x - x') (B2R y - y') / h' <= 2 * t / h') by (apply Rmult_le_compat_r; [apply Rlt_le, Rinv_0_lt_compat; exact P'|lra]). lra.
Qed.

Definition f_pitch (m : M33 fl) : fl := fatan2 (neg (mfun m 2 0)) (fsqrt (add (mul (mfun m 0 0) (mfun m 0 0)) (mul (mfun m 1 0) (mfun m 1 0)))).

Lemma pitch_close e E m (r : M33 R) : math_ok e -> SO3 r -> close3 E m r -> E <= / 20 ->
  is_finite (f_pitch m) = true /\ Rabs (B2R (f_pitch m)) <= 4 /\
  hyp (cos (B2R (f_pitch m)) - cos_pitch r) (sin (B2R (f_pitch m)) - - mfun r 2 0) <= 2 * E + 7 * uro + 14143 / 10000 * e.
Proof.
  intros M H C LE. pose proof (uro_small Hp11) as U. pose proof (uro_pos (prec := prec)) as P. pose proof (close_pos _ _ _ C) as E0.
  destruct (close_pairs _ _ _ C) as (T & D1 & _ & _). cbv zeta in T, D1. destruct C as [F _].
  destruct (pitch_trig (K := f64_consts) r H) as (PC & PS & W & W0).
  assert (W1 : hyp (cos_pitch r) (- mfun r 2 0) = 1).
  { unfold hyp. rewrite <- PC, <- PS. rewrite Rplus_comm. rewrite sin2_cos2'. apply sqrt_1. }
  pose proof (hyp_comp (cos_pitch r) (- mfun r 2 0)) as [K _]. rewrite W1, Rabs_pos_eq in K by exact W0.
  pose proof (hyp_diff (B2R (mfun m 0 0)) (B2R (mfun m 1 0)) (mfun r 0 0) (mfun r 1 0)) as D. change (hyp (mfun r 0 0) (mfun r 1 0)) with (cos_pitch r) in D.
  apply Rabs_le_inv in D.
  destruct (root_ok (mfun m 0 0) (mfun m 1 0)) as [Fs Es]; [apply F; lia..|lra| ].
  assert (B : hyp (B2R (fsqrt (add (mul (mfun m 0 0) (mfun m 0 0)) (mul (mfun m 1 0) (mfun m 1 0)))) - cos_pitch r) (B2R (neg (mfun m 2 0)) - - mfun r 2 0) <= E + 35 / 10 * uro).
  { change (neg (mfun m 2 0)) with (Bopp (mfun m 2 0)). rewrite B2R_Bopp. set (s := B2R (fsqrt _)) in *. set (h := hyp (B2R (mfun m 0 0)) (B2R (mfun m 1 0))) in *.
    replace (s - cos_pitch r) with ((h - cos_pitch r) + (s - h)) by ring. replace (- B2R (mfun m 2 0) - - mfun r 2 0) with (- (B2R (mfun m 2 0) - mfun r 2 0) + 0) by ring.
    eapply Rle_trans; [apply hyp_plus| ]. apply Rplus_le_compat.
    - apply hyp_le; [exact E0| ]. pose proof (hyp_sq (B2R (mfun m 0 0) - mfun r 0 0) (B2R (mfun m 1 0) - mfun r 1 0)) as Q. pose proof (hyp_pos (B2R (mfun m 0 0) - mfun r 0 0) (B2R (mfun m 1 0) - mfun r 1 0)) as Q0.
      set (q := hyp (B2R (mfun m 0 0) - mfun r 0 0) (B2R (mfun m 1 0) - mfun r 1 0)) in *. assert ((h - cos_pitch r) * (h - cos_pitch r) <= q * q) by nra. lra.
    - apply hyp_le; [lra| ]. apply Rabs_le_inv in Es. rewrite Rmult_0_l, Rplus_0_r. nra. }
  assert (Fn : is_finite (neg (mfun m 2 0)) = true) by (change (is_finite (Bopp (mfun m 2 0)) = true); rewrite is_finite_Bopp; apply F; lia).
  assert (L1 : E + 35 / 10 * uro < hyp (cos_pitch r) (- mfun r 2 0)) by (rewrite W1; lra).
  destruct (atan_close e _ _ (- mfun r 2 0) (cos_pitch r) _ M Fn Fs B L1) as (Fa & La & Ca).
  rewrite W1 in Ca. unfold Rdiv in Ca. rewrite Rinv_1, !Rmult_1_r in Ca. split; [exact Fa|split; [exact La| ]]. unfold f_pitch. lra.
Qed.

(** ** the branches *)
Definition f_lock (m : M33 fl) (s : R) : Prop := s = 1 /\ nearly_equal (f_pitch m) FRAC_PI_2 epsilon = true \/ s = -1 /\ nearly_equal (f_pitch m) (mul (neg one) FRAC_PI_2) epsilon = true.

Lemma neg_one_mul (x : fl) : is_finite x = true -> is_finite (mul (neg one) x) = true /\ B2R (mul (neg one) x) = - B2R x.
Proof.
  intros F. pose proof (Bmult_correct prec emax Hp He mode_NE (Bopp Bone) x) as C. cbn [round_mode] in C. rewrite fe_eq, B2R_Bopp, Bone_correct in C.
  replace (- (1) * B2R x) with (B2R (Bopp x)) in C by (rewrite B2R_Bopp; ring). rewrite rnd_val in C. rewrite Rlt_bool_true in C by apply abs_B2R_lt_emax.
  destruct C as (C1 & C2 & _). rewrite is_finite_Bopp, is_finite_Bone, F in C2. split; [exact C2| ]. rewrite <- B2R_Bopp. exact C1.
Qed.

Lemma lock_small e E m (r : M33 R) s : math_ok e -> SO3 r -> close3 E m r -> E <= / 20 -> e <= / 100 -> f_lock m s ->
  s * s = 1 /\ Rabs (B2R (f_pitch m) - s * (PI / 2)) <= 9 * uro + e /\ cos_pitch r <= 2 * E + 16 * uro + 25 / 10 * e.
Proof.
  intros M H C LE Le L. pose proof (math_pos e M) as E0. destruct (pitch_close e E m r M H C LE) as (F & B & D). destruct M as (_ & _ & Fh & Lh).
  assert (S2 : s * s = 1) by (destruct L as [[-> _]|[-> _]]; ring). split; [exact S2| ].
  assert (K : Rabs (B2R (f_pitch m) - s * (PI / 2)) <= 9 * uro + e).
  { destruct L as [[-> L]|[-> L]].
    - apply (nearly_half_pi e _ FRAC_PI_2 1 F B Fh ltac:(ring)); [rewrite Rmult_1_l; exact Lh|exact Le|exact L].
    - destruct (neg_one_mul _ Fh) as [Fn Vn]. apply (nearly_half_pi e _ _ (-1) F B Fn ltac:(ring)); [ |exact Le|exact L].
      rewrite Vn. replace (- B2R (FRAC_PI_2 : fl) - -1 * (PI / 2)) with (- (B2R (FRAC_PI_2 : fl) - PI / 2)) by ring. rewrite Rabs_Ropp. exact Lh. }
  split; [exact K| ].
  pose proof (cos_lip (B2R (f_pitch m)) (s * (PI / 2))) as Q.
  assert (Z : cos (s * (PI / 2)) = 0).
  { destruct L as [[-> _]|[-> _]]; [rewrite Rmult_1_l; apply cos_PI2|replace (-1 * (PI / 2)) with (- (PI / 2)) by ring; rewrite cos_neg; apply cos_PI2]. }
  rewrite Z, Rminus_0_r in Q. destruct (hyp_comp (cos (B2R (f_pitch m)) - cos_pitch r) (sin (B2R (f_pitch m)) - - mfun r 2 0)) as [A _].
  apply Rabs_le_inv in A. apply Rabs_le_inv in Q. lra.
Qed.

(** the last step: rebuilding from float angles *)
Lemma rebuild e (y p q : fl) (y' p' q' : R) ty tp tq : math_ok e -> e <= / 800 -> is_finite y = true -> is_finite p = true -> is_finite q = true -> Rabs (B2R y) <= 4 -> Rabs (B2R p) <= 4 -> Rabs (B2R q) <= 4 ->
  hyp (cos (B2R y) - cos y') (sin (B2R y) - sin y') <= ty -> hyp (cos (B2R p) - cos p') (sin (B2R p) - sin p') <= tp -> hyp (cos (B2R q) - cos q') (sin (B2R q) - sin q') <= tq ->
  close3 (61 / 10 * e + 187 / 10 * uro + 14143 / 10000 * (ty + tp + tq)) (euler_to_rotation y p q None) (euler_product None y' p' q').
Proof.
  intros M Le Fy Fp Fq Ly Lp Lq Hy Hp' Hq. destruct M as (T & _).
  pose proof (c96_euler_to_rotation Hp11 He4 e y p q None (T y Fy Ly) (T p Fp Lp) (T q Fq Lq) Le ltac:(discriminate)) as [F C]. split; [exact F| ].
  rewrite close_dst in C |- *. eapply Rle_trans; [apply (dst_tri _ (mfun (euler_product None (B2R y) (B2R p) (B2R q))))| ].
  pose proof (product_dst _ _ _ _ _ _ _ _ _ Hy Hp' Hq). lra.
Qed.

Lemma to_euler_cases (m : M33 fl) : 
  (exists s, f_lock m s /\ rotation_to_euler m = (fatan2 (if Rlt_bool s 0 then neg (mfun m 1 2) else mfun m 1 2) (if Rlt_bool s 0 then neg (mfun m 0 2) else mfun m 0 2), f_pitch m, zero)) \/
  (nearly_equal (f_pitch m) (mul (neg one) FRAC_PI_2) epsilon = false /\ nearly_equal (f_pitch m) FRAC_PI_2 epsilon = false /\ rotation_to_euler m = (fatan2 (mfun m 1 0) (mfun m 0 0), f_pitch m, fatan2 (mfun m 2 1) (mfun m 2 2))).
Proof.
  assert (E : rotation_to_euler m = if nearly_equal (f_pitch m) (mul (neg one) FRAC_PI_2) epsilon then (fatan2 (neg (mfun m 1 2)) (neg (mfun m 0 2)), f_pitch m, zero)
    else if nearly_equal (f_pitch m) FRAC_PI_2 epsilon then (fatan2 (mfun m 1 2) (mfun m 0 2), f_pitch m, zero) else (fatan2 (mfun m 1 0) (mfun m 0 0), f_pitch m, fatan2 (mfun m 2 1) (mfun m 2 2))) by reflexivity.
  rewrite E. clear E. destruct (nearly_equal (f_pitch m) (mul (neg one) FRAC_PI_2) epsilon) eqn:N1.
  - left. exists (-1). split; [right; split; [reflexivity|exact N1]|rewrite Rlt_bool_true by lra; reflexivity].
  - destruct (nearly_equal (f_pitch m) FRAC_PI_2 epsilon) eqn:N2; [left|right; auto].
    exists 1. split; [left; split; [reflexivity|exact N2]|rewrite Rlt_bool_false by lra; reflexivity].
Qed.

Definition rebuilt_f (m : M33 fl) : M33 fl := let '(y, p, q) := rotation_to_euler m in euler_to_rotation y p q None.

Lemma c98_regular_partial : forall e E (m : M33 fl) (r : M33 R), math_ok e -> e <= / 800 -> SO3 r -> close3 E m r -> 20 * (E + uro + e) <= cos_pitch r ->
  close3 (9 * E / cos_pitch r + 29 * uro + 13 * e) (rebuilt_f m) r.
Proof.
  intros e E m r M Le H C W. pose proof (uro_small Hp11) as U. pose proof (uro_pos (prec := prec)) as P. pose proof (close_pos _ _ _ C) as E0. pose proof (math_pos e M) as e0.
  destruct (pitch_trig (K := f64_consts) r H) as (PC & PS & WW & W0). pose proof (COS_bound (pitch_of (K := f64_consts) r)) as CB. rewrite PC in CB.
  assert (LE : E <= / 20) by lra.
  destruct (to_euler_cases m) as [(s & L & _)|(_ & _ & EQ)].
  { exfalso. destruct (lock_small e E m r s M H C LE ltac:(lra) L) as (_ & _ & K). lra. }
  unfold rebuilt_f. rewrite EQ. clear EQ.
  destruct (pitch_close e E m r M H C LE) as (Fp & Lp & Dp).
  destruct (close_pairs _ _ _ C) as (_ & D1 & D2 & _). cbv zeta in D1, D2. destruct C as [F _].
  assert (Wp : 0 < cos_pitch r) by lra.
  assert (H1 : hyp (mfun r 0 0) (mfun r 1 0) = cos_pitch r) by reflexivity.
  assert (H2 : hyp (mfun r 2 2) (mfun r 2 1) = cos_pitch r).
  { unfold hyp, cos_pitch. f_equal. revert H. clear. intros H. pose proof (SO3_orth r H) as [A B]. pose proof (A 0 0 ltac:(lia) ltac:(lia))%nat as Q1. pose proof (B 2 2 ltac:(lia) ltac:(lia))%nat as Q2.
    unfold gram, tr, dlt in Q1, Q2. cbn [Nat.eqb] in Q1, Q2. lra. }
  destruct (atan_close e (mfun m 1 0) (mfun m 0 0) (mfun r 1 0) (mfun r 0 0) E M) as (Fy & Ly & Dy); [apply F; lia..|exact D1|rewrite H1; lra| ].
  destruct (atan_close e (mfun m 2 1) (mfun m 2 2) (mfun r 2 1) (mfun r 2 2) E M) as (Fq & Lq & Dq); [apply F; lia..|exact D2|rewrite H2; lra| ].
  rewrite H1 in Dy. rewrite H2 in Dq.
  destruct (Ratan2_spec (mfun r 0 0) (mfun r 1 0)) as (_ & Cy & Sy & _); [apply hyp_nz; rewrite H1; exact Wp| ].
  destruct (Ratan2_spec (mfun r 2 2) (mfun r 2 1)) as (_ & Cq & Sq & _); [apply hyp_nz; rewrite H2; exact Wp| ].
  fold (hyp (mfun r 0 0) (mfun r 1 0)) in Cy, Sy. fold (hyp (mfun r 2 2) (mfun r 2 1)) in Cq, Sq. rewrite H1 in Cy, Sy. rewrite H2 in Cq, Sq.
  rewrite <- Cy, <- Sy in Dy. rewrite <- Cq, <- Sq in Dq. rewrite <- PC, <- PS in Dp.
  pose proof (rebuild e _ _ _ _ _ _ _ _ _ M Le Fy Fp Fq Ly Lp Lq Dy Dp Dq) as R1.
  replace (euler_product None (Ratan2 (mfun r 1 0) (mfun r 0 0)) (pitch_of (K := f64_consts) r) (Ratan2 (mfun r 2 1) (mfun r 2 2))) with r in R1.
  - apply (close_weaken _ _ _ _ R1). assert (G : E <= E / cos_pitch r).
    { apply Rmult_le_reg_r with (cos_pitch r); [exact Wp| ]. unfold Rdiv. rewrite Rmult_assoc, Rinv_l by lra. nra. }
    replace (2 * E / cos_pitch r) with (2 * (E / cos_pitch r)) by (unfold Rdiv; ring). replace (9 * E / cos_pitch r) with (9 * (E / cos_pitch r)) by (unfold Rdiv; ring).
    set (g := E / cos_pitch r) in *. clearbody g. lra.
  - symmetry. rewrite <- (c30_euler_sequences_partial (K := f64_consts) None) by discriminate. apply (regular (K := f64_consts) r); auto.
Qed.

(** with the gimbal lock test positive *)
Lemma c98_lock : forall e E (m : M33 fl) (r : M33 R), math_ok e -> e <= / 800 -> SO3 r -> close3 E m r -> E <= / 100 ->
  (let p := snd (fst (rotation_to_euler m)) in nearly_equal p FRAC_PI_2 epsilon = true \/ nearly_equal p (mul (neg one) FRAC_PI_2) epsilon = true) ->
  close3 (18 * E + 125 * uro + 26 * e) (rebuilt_f m) r.
Proof.
  intros e E m r M Le H C LE L. pose proof (uro_small Hp11) as U. pose proof (uro_pos (prec := prec)) as P. pose proof (close_pos _ _ _ C) as E0. pose proof (math_pos e M) as e0.
  destruct (pitch_trig (K := f64_consts) r H) as (PC & PS & WW & W0).
  destruct (to_euler_cases m) as [(s & K & EQ)|(N1 & N2 & EQ)].
  2:{ exfalso. rewrite EQ in L. cbn [fst snd] in L. rewrite N1, N2 in L. destruct L; discriminate. }
  unfold rebuilt_f. rewrite EQ. clear EQ L.
  destruct (pitch_close e E m r M H C ltac:(lra)) as (Fp & Lp & Dp). rewrite <- PC, <- PS in Dp.
  destruct (lock_small e E m r s M H C ltac:(lra) ltac:(lra) K) as (S2 & Pp & Wm).
  assert (Hs : s = 1 \/ s = -1) by (destruct K as [[-> _]|[-> _]]; auto). clear K.
  assert (As : Rabs s = 1) by (destruct Hs as [->| ->]; [apply Rabs_R1|rewrite <- (Rabs_Ropp); replace (- -1) with 1 by ring; apply Rabs_R1]).
  destruct (close_pairs _ _ _ C) as (_ & _ & _ & D3). cbv zeta in D3. destruct C as [F _].
  set (p0 := pitch_of (K := f64_consts) r) in *.
  assert (Sp : 0 < s * sin p0).
  { pose proof (sin_lip (B2R (f_pitch m)) (s * (PI / 2))) as Q. destruct (hyp_comp (cos (B2R (f_pitch m)) - cos p0) (sin (B2R (f_pitch m)) - sin p0)) as [_ A].
    assert (Z : sin (s * (PI / 2)) = s) by (destruct Hs as [->| ->]; [rewrite Rmult_1_l; apply sin_PI2|replace (-1 * (PI / 2)) with (- (PI / 2)) by ring; rewrite sin_neg, sin_PI2; ring]).
    rewrite Z in Q. apply Rabs_le_inv in A. apply Rabs_le_inv in Q. destruct Hs as [->| ->]; lra. }
  set (ff := fun x : fl => if Rlt_bool s 0 then neg x else x).
  assert (FF : forall x, is_finite x = true -> is_finite (ff x) = true /\ B2R (ff x) = s * B2R x).
  { intros x Hx. unfold ff. destruct Hs as [->| ->]; [rewrite Rlt_bool_false by lra; split; [exact Hx|ring]|rewrite Rlt_bool_true by lra].
    change (neg x) with (Bopp x). rewrite is_finite_Bopp, B2R_Bopp. split; [exact Hx|ring]. }
  fold (ff (mfun m 1 2)) (ff (mfun m 0 2)).
  destruct (FF (mfun m 1 2) (F 1%nat 2%nat ltac:(lia) ltac:(lia))) as [F12 V12]. destruct (FF (mfun m 0 2) (F 0%nat 2%nat ltac:(lia) ltac:(lia))) as [F02 V02].
  assert (H3 : hyp (s * mfun r 0 2) (s * mfun r 1 2) * hyp (s * mfun r 0 2) (s * mfun r 1 2) = 1 - mfun r 2 2 * mfun r 2 2 /\ mfun r 2 2 * mfun r 2 2 <= cos_pitch r * cos_pitch r).
  { rewrite hyp_scal, As, Rmult_1_l, hyp_sq, WW. revert H. clear. intros H. pose proof (SO3_orth r H) as [A B]. pose proof (A 0 0 ltac:(lia) ltac:(lia))%nat as Q1. pose proof (B 2 2 ltac:(lia) ltac:(lia))%nat as Q2.
    pose proof (A 2 2 ltac:(lia) ltac:(lia))%nat as Q3. unfold gram, tr, dlt in Q1, Q2, Q3. cbn [Nat.eqb] in Q1, Q2, Q3. pose proof (pow2_ge_0 (mfun r 2 1)). lra. }
  destruct H3 as [H3 H3']. pose proof (hyp_pos (s * mfun r 0 2) (s * mfun r 1 2)) as H0. 
  assert (R0 : 999 / 1000 <= hyp (s * mfun r 0 2) (s * mfun r 1 2)).
  { assert (cos_pitch r * cos_pitch r <= 32 / 1000 * (32 / 1000)) by (apply Rmult_le_compat; lra). nra. }
  assert (D3' : hyp (B2R (ff (mfun m 0 2)) - s * mfun r 0 2) (B2R (ff (mfun m 1 2)) - s * mfun r 1 2) <= E).
  { rewrite V12, V02. rewrite <- !Rmult_minus_distr_l, hyp_scal, As, Rmult_1_l. exact D3. }
  destruct (atan_close e (ff (mfun m 1 2)) (ff (mfun m 0 2)) (s * mfun r 1 2) (s * mfun r 0 2) E M F12 F02 D3' ltac:(lra)) as (Fy & Ly & Dy).
  destruct (Ratan2_spec (s * mfun r 0 2) (s * mfun r 1 2)) as (_ & Cy & Sy & _); [apply hyp_nz; lra| ].
  fold (hyp (s * mfun r 0 2) (s * mfun r 1 2)) in Cy, Sy. rewrite <- Cy, <- Sy in Dy. set (y0 := Ratan2 (s * mfun r 1 2) (s * mfun r 0 2)) in *.
  assert (Dq : hyp (cos (B2R (zero : fl)) - cos 0) (sin (B2R (zero : fl)) - sin 0) <= 0).
  { change (B2R (zero : fl)) with 0. unfold Rminus. rewrite !Rplus_opp_r. unfold hyp. rewrite Rmult_0_l, Rplus_0_l, sqrt_0. lra. }
  assert (Lq : Rabs (B2R (zero : fl)) <= 4) by (change (B2R (zero : fl)) with 0; rewrite Rabs_R0; lra).
  pose proof (rebuild e _ _ (zero : fl) _ _ _ _ _ _ M Le Fy Fp eq_refl Ly Lp Lq Dy Dp Dq) as [G1 R1]. split; [exact G1| ]. rewrite close_dst in R1 |- *.
  eapply Rle_trans; [apply (dst_tri _ (mfun (euler_product None y0 p0 0)))| ].
  assert (R2 : dst (mfun (euler_product None y0 p0 0)) (mfun r) <= 6 * cos_pitch r).
  { unfold dst. eapply Rle_trans; [apply (fnorm_all _ (2 * cos_pitch r)); [lra| ]|lra]. cbv beta. rewrite <- (c30_euler_sequences_partial (K := f64_consts) None) by discriminate.
    apply (gimbal (K := f64_consts) r s); auto. }
  assert (G : 2 * E / hyp (s * mfun r 0 2) (s * mfun r 1 2) <= 2003 / 1000 * E).
  { set (h := hyp (s * mfun r 0 2) (s * mfun r 1 2)) in *. apply Rmult_le_reg_r with h; [lra| ]. unfold Rdiv. rewrite Rmult_assoc, Rinv_l by lra.
    assert (2003 / 1000 * E * (999 / 1000) <= 2003 / 1000 * E * h) by (apply Rmult_le_compat_l; lra). lra. }
  lra.
Qed.

(** the angles of a float quaternion *)
Lemma c98_quaternion_partial : forall e E (a : Quaternion fl) (A : Quaternion R), math_ok e -> e <= / 800 -> unit_quat A -> close4 E a A -> E <= / 220 ->
  20 * (61 / 10 * E + 14 * uro + e) <= cos_pitch (q_to_rotation A) ->
  let '(y, p, q) := q_to_euler_angles a in close3 ((55 * E + 111 * uro) / cos_pitch (q_to_rotation A) + 29 * uro + 13 * e) (euler_to_rotation y p q None) (q_to_rotation A).
Proof.
  intros e E a A M Le UA C LE W. pose proof (uro_pos (prec := prec)) as P.
  assert (E0 : 0 <= E) by (destruct C as [_ C]; rewrite close4_nrm in C; pose proof (nrm_pos 4 (fun k => qR a k - rq A k)); lra).
  destruct (c96_quaternion_matrix Hp11 He4 E a A UA C LE) as [_ Q].
  assert (C3 : close3 (603 / 100 * E + 123 / 10 * uro) (q_to_rotation a) (q_to_rotation A)).
  { split; [intros i j Hi Hj; apply Q; assumption| ]. rewrite close_dst. unfold dst. eapply Rle_trans; [apply (fnorm_all _ (201 / 100 * E + 41 / 10 * uro)); [lra| ]|lra].
    intros i j Hi Hj. apply Q; assumption. }
  pose proof (c98_regular_partial e _ _ _ M Le (c27_to_rotation_SO3 R_ring A UA) C3 ltac:(lra)) as G. unfold rebuilt_f in G. unfold q_to_euler_angles.
  destruct (rotation_to_euler (q_to_rotation a)) as ((y & p) & q). apply (close_weaken _ _ _ _ G).
  assert (Wp : 0 < cos_pitch (q_to_rotation A)) by (pose proof (math_pos e M); lra).
  assert (I : 0 < / cos_pitch (q_to_rotation A)) by now apply Rinv_0_lt_compat. unfold Rdiv.
  assert (9 * (603 / 100 * E + 123 / 10 * uro) * / cos_pitch (q_to_rotation A) <= (55 * E + 111 * uro) * / cos_pitch (q_to_rotation A)) by (apply Rmult_le_compat_r; lra). lra.
Qed.
End F.

#[local] Instance prec53 : Prec_gt_0 53 := eq_refl.
#[local] Instance emax1024 : Prec_lt_emax 53 1024 := eq_refl.
#[local] Notation f64 := (binary_float 53 1024).
#[local] Notation u53 := (FloatFacts.uro (prec := 53)).

(** a quaternion of length one up to rounding, 16 u away from gimbal lock *)
Definition q_lock : Quaternion f64 := q_new_from (Bldexp mode_NE (fofZ 8931159862815705) (-54)) (Bldexp mode_NE (fofZ (-4541301034231361)) (-53))
  (Bldexp mode_NE (fofZ 8931159862815704) (-54)) (Bldexp mode_NE (fofZ 4541301034231350) (-53)).

Lemma q_lock_unit : near_unit u53 q_lock.
Proof.
  assert (X0 : B2SF (qcomp 0 q_lock) = SpecFloat.S754_finite false 8931159862815705 (-54)) by (vm_compute; reflexivity).
  assert (X1 : B2SF (qcomp 1 q_lock) = SpecFloat.S754_finite true 4541301034231361 (-53)) by (vm_compute; reflexivity).
  assert (X2 : B2SF (qcomp 2 q_lock) = SpecFloat.S754_finite false 8931159862815704 (-54)) by (vm_compute; reflexivity).
  assert (X3 : B2SF (qcomp 3 q_lock) = SpecFloat.S754_finite false 4541301034231350 (-53)) by (vm_compute; reflexivity).
  split.
  - intros k Hk. destruct k as [ |[ |[ |[ |k]]]]; [ | | | |lia]; vm_compute; reflexivity.
  - apply B2R_of_SF in X0. apply B2R_of_SF in X1. apply B2R_of_SF in X2. apply B2R_of_SF in X3.
    pose proof (nrm_sq 4 (qR q_lock)) as Q. pose proof (nrm_pos 4 (qR q_lock)) as P. set (n := nrm 4 (qR q_lock)) in *. clearbody n.
    assert (Q' : n * n = B2R (qcomp 0 q_lock) * B2R (qcomp 0 q_lock) + B2R (qcomp 1 q_lock) * B2R (qcomp 1 q_lock) + B2R (qcomp 2 q_lock) * B2R (qcomp 2 q_lock) + B2R (qcomp 3 q_lock) * B2R (qcomp 3 q_lock)).
    { rewrite Q. unfold sq_sum, qR. lazy [sumn add mul zero R_Num]. ring. }
    rewrite X0, X1, X2, X3 in Q'. clear Q X0 X1 X2 X3. unfold FloatFacts.uro. change (bpow radix2 (1 - 53)) with (/ 4503599627370496).
    change (bpow radix2 (-54)) with (/ 18014398509481984) in Q'. change (bpow radix2 (-53)) with (/ 9007199254740992) in Q'.
    apply Rabs_le. split; nra.
Qed.

Lemma product_11 y p q : mfun (euler_product None y p q) 1 1 = sin y * sin p * sin q + cos y * cos q.
Proof. unfold euler_product. cbn [seq_axes]. lazy -[Rplus Rmult Ropp Rminus sin cos IZR]. ring. Qed.

Lemma lock_core (O : FOracle f64) (m : M33 f64) (t : f64) : math_ok (O := O) (21 / 10 * u53) -> t = fsqrt (add (mul (mfun m 0 0) (mfun m 0 0)) (mul (mfun m 1 0) (mfun m 1 0))) ->
  is_finite (mfun m 0 0) = true -> is_finite (mfun m 1 0) = true -> is_finite (mfun m 2 0) = true -> is_finite (mfun m 2 1) = true -> is_finite (mfun m 2 2) = true -> is_finite t = true ->
  B2R (mfun m 0 0) = 125 / 10 * u53 -> B2R (mfun m 1 0) = - 10 * u53 -> B2R (mfun m 2 0) = -1 -> B2R (mfun m 2 1) = - 11 * u53 -> B2R (mfun m 2 2) = - (115 / 10) * u53 -> 16 * u53 <= B2R t <= 17 * u53 ->
  let '(y, p, q) := rotation_to_euler m in B2R (mfun (euler_to_rotation y p q None) 1 1) <= - (12 / 100).
Proof.
  intros M Et F00 F10 F20 F21 F22 Ft V00 V10 V20 V21 V22 Vt. pose proof uro53 as U0. pose proof (uro_pos (prec := 53)) as Up.
  set (e := 21 / 10 * u53) in *. assert (Ee : e = 21 / 10 * u53) by reflexivity. clearbody e.
  assert (Fn : is_finite (neg (mfun m 2 0)) = true) by (change (is_finite (Bopp (mfun m 2 0)) = true); rewrite is_finite_Bopp; exact F20).
  assert (Vn : B2R (neg (mfun m 2 0)) = 1) by (change (neg (mfun m 2 0)) with (Bopp (mfun m 2 0)); rewrite B2R_Bopp, V20; ring).
  assert (Z : forall a b, hyp (a - a) (b - b) <= 0) by (intros a b; unfold Rminus; rewrite !Rplus_opp_r; unfold hyp; rewrite Rmult_0_l, Rplus_0_l, sqrt_0; lra).
  assert (Hh : 1 <= hyp (B2R t) (B2R (neg (mfun m 2 0))) <= 1001 / 1000).
  { rewrite Vn. split; [destruct (hyp_comp (B2R t) 1) as [_ A]; rewrite Rabs_R1 in A; exact A|apply hyp_le; [lra|nra]]. }
  destruct (atan_close e (neg (mfun m 2 0)) t _ _ 0 M Fn Ft (Z _ _) ltac:(lra)) as (Fp & Lp & Dp). assert (Ep : fatan2 (neg (mfun m 2 0)) t = f_pitch m) by (rewrite Et; reflexivity). rewrite Ep in Fp, Lp, Dp. clear Ep Et.
  assert (H1 : 0 < hyp (B2R (mfun m 0 0)) (B2R (mfun m 1 0)) <= 16009 / 1000 * u53).
  { pose proof (hyp_comp (B2R (mfun m 0 0)) (B2R (mfun m 1 0))) as [A _]. rewrite V00 in A at 1. rewrite Rabs_pos_eq in A by lra. split; [lra| ]. rewrite V00, V10. apply hyp_le; [lra|nra]. }
  assert (H2 : 0 < hyp (B2R (mfun m 2 2)) (B2R (mfun m 2 1)) <= 15915 / 1000 * u53).
  { pose proof (hyp_comp (B2R (mfun m 2 2)) (B2R (mfun m 2 1))) as [A _]. rewrite V22 in A at 1. rewrite Rabs_left in A by lra. split; [lra| ]. rewrite V22, V21. apply hyp_le; [lra|nra]. }
  destruct (atan_close e (mfun m 1 0) (mfun m 0 0) _ _ 0 M F10 F00 (Z _ _) ltac:(lra)) as (Fy & Ly & Dy).
  destruct (atan_close e (mfun m 2 1) (mfun m 2 2) _ _ 0 M F21 F22 (Z _ _) ltac:(lra)) as (Fq & Lq & Dq).
  destruct (Ratan2_spec (B2R t) (B2R (neg (mfun m 2 0)))) as (_ & Cp & Sp & _); [apply hyp_nz; lra| ].
  destruct (Ratan2_spec (B2R (mfun m 0 0)) (B2R (mfun m 1 0))) as (_ & Cy & Sy & _); [apply hyp_nz; lra| ].
  destruct (Ratan2_spec (B2R (mfun m 2 2)) (B2R (mfun m 2 1))) as (_ & Cq & Sq & _); [apply hyp_nz; lra| ].
  fold (hyp (B2R t) (B2R (neg (mfun m 2 0)))) in Cp, Sp. fold (hyp (B2R (mfun m 0 0)) (B2R (mfun m 1 0))) in Cy, Sy. fold (hyp (B2R (mfun m 2 2)) (B2R (mfun m 2 1))) in Cq, Sq.
  rewrite <- Cp, <- Sp in Dp. rewrite <- Cy, <- Sy in Dy. rewrite <- Cq, <- Sq in Dq.
  set (p' := Ratan2 (B2R (neg (mfun m 2 0))) (B2R t)) in *. set (y' := Ratan2 (B2R (mfun m 1 0)) (B2R (mfun m 0 0))) in *. set (q' := Ratan2 (B2R (mfun m 2 1)) (B2R (mfun m 2 2))) in *.
  assert (Zd : forall h, 2 * 0 / h + 14143 / 10000 * e = 14143 / 10000 * e) by (intros h; unfold Rdiv; ring). rewrite Zd in Dp, Dy, Dq. clear Zd.
  (* the pitch is outside the tolerance *)
  assert (NL : forall s, ~ f_lock m s).
  { intros s L. assert (S2 : s * s = 1) by (destruct L as [[-> _]|[-> _]]; ring). destruct M as (_ & _ & Fh & Lh).
    assert (K : Rabs (B2R (f_pitch m) - s * (PI / 2)) <= 9 * u53 + e).
    { destruct L as [[-> L]|[-> L]].
      - apply (nearly_half_pi (prec := 53) (emax := 1024) ltac:(lia) ltac:(lia) e _ FRAC_PI_2 1 Fp Lp Fh ltac:(ring)); [rewrite Rmult_1_l; exact Lh|lra|exact L].
      - destruct (neg_one_mul (FRAC_PI_2 : f64) Fh) as [Fn' Vn']. apply (nearly_half_pi (prec := 53) (emax := 1024) ltac:(lia) ltac:(lia) e _ _ (-1) Fp Lp Fn' ltac:(ring)); [ |lra|exact L].
        rewrite Vn'. replace (- B2R (FRAC_PI_2 : f64) - -1 * (PI / 2)) with (- (B2R (FRAC_PI_2 : f64) - PI / 2)) by ring. rewrite Rabs_Ropp. exact Lh. }
    pose proof (cos_lip (B2R (f_pitch m)) (s * (PI / 2))) as Q.
    assert (Zc : cos (s * (PI / 2)) = 0).
    { destruct L as [[-> _]|[-> _]]; [rewrite Rmult_1_l; apply cos_PI2|replace (-1 * (PI / 2)) with (- (PI / 2)) by ring; rewrite cos_neg; apply cos_PI2]. }
    rewrite Zc, Rminus_0_r in Q. destruct (hyp_comp (cos (B2R (f_pitch m)) - cos p') (sin (B2R (f_pitch m)) - sin p')) as [A _].
    assert (Cb : 159 / 10 * u53 <= cos p').
    { rewrite Cp. set (h := hyp (B2R t) (B2R (neg (mfun m 2 0)))) in *. apply Rmult_le_reg_r with h; [lra| ]. replace (B2R t / h * h) with (B2R t) by (field; lra). nra. }
    apply Rabs_le_inv in A. apply Rabs_le_inv in Q. lra. }
  destruct (to_euler_cases m) as [(s & L & _)|(_ & _ & EQ)]; [exfalso; exact (NL s L)| ]. rewrite EQ. clear EQ NL.
  pose proof (rebuild (prec := 53) (emax := 1024) ltac:(lia) ltac:(lia) e _ _ _ _ _ _ _ _ _ M ltac:(lra) Fy Fp Fq Ly Lp Lq Dy Dp Dq) as [_ R1]. rewrite close_dst in R1.
  set (b := euler_to_rotation _ _ _ None) in *. clearbody b.
  pose proof (fnorm_entry (fun i j => mR b i j - mfun (euler_product None y' p' q') i j) 1 1 ltac:(lia) ltac:(lia)) as B. cbv beta in B.
  change (fnorm (fun i j => mR b i j - mfun (euler_product None y' p' q') i j)) with (dst (mR b) (mfun (euler_product None y' p' q'))) in B. rewrite product_11 in B.
  assert (Pb : sin y' * sin p' * sin q' + cos y' * cos q' <= - (13 / 100)).
  { rewrite Cy, Sy, Cq, Sq. set (h1 := hyp (B2R (mfun m 0 0)) (B2R (mfun m 1 0))) in *. set (h2 := hyp (B2R (mfun m 2 2)) (B2R (mfun m 2 1))) in *.
    replace (B2R (mfun m 1 0) / h1 * sin p' * (B2R (mfun m 2 1) / h2) + B2R (mfun m 0 0) / h1 * (B2R (mfun m 2 2) / h2)) with ((B2R (mfun m 1 0) * B2R (mfun m 2 1) * sin p' + B2R (mfun m 0 0) * B2R (mfun m 2 2)) / (h1 * h2)) by (field; lra).
    apply Rmult_le_reg_r with (h1 * h2); [apply Rmult_lt_0_compat; lra| ]. match goal with |- ?z / (h1 * h2) * (h1 * h2) <= _ => replace (z / (h1 * h2) * (h1 * h2)) with z by (field; lra) end.
    rewrite V00, V10, V21, V22. pose proof (SIN_bound p') as Sb. assert (Hm : h1 * h2 <= 16009 / 1000 * u53 * (15915 / 1000 * u53)) by (apply Rmult_le_compat; lra).
    assert (U2 : 0 < u53 * u53) by (apply Rmult_lt_0_compat; lra). assert (u53 * u53 * sin p' <= u53 * u53 * 1) by (apply Rmult_le_compat_l; lra). lra. }
  change (mR b 1%nat 1%nat) with (B2R (mfun b 1 1)) in B. assert (B' := Rle_trans _ _ _ B R1). apply Rabs_le_inv in B'. lra.
Qed.

(** with any accurate math library the angles of this quaternion describe another rotation *)
Lemma c98_round_trip_refuted : forall O : FOracle f64, math_ok (O := O) (21 / 10 * u53) ->
  exists a : Quaternion f64, near_unit u53 a /\
  let '(y, p, q) := q_to_euler_angles a in / 10 <= Rabs (B2R (mfun (euler_to_rotation y p q None) 1 1) - B2R (mfun (q_to_rotation a) 1 1)).
Proof.
  intros O M. exists q_lock. split; [exact q_lock_unit| ]. set (m := q_to_rotation q_lock).
  assert (U : u53 = / 9007199254740992) by (unfold FloatFacts.uro; change (bpow radix2 (1 - 53)) with (/ 4503599627370496); lra).
  assert (X00 : B2SF (mfun m 0 0) = SpecFloat.S754_finite false 7036874417766400 (-102)) by (vm_compute; reflexivity).
  assert (X10 : B2SF (mfun m 1 0) = SpecFloat.S754_finite true 5629499534213120 (-102)) by (vm_compute; reflexivity).
  assert (X20 : B2SF (mfun m 2 0) = SpecFloat.S754_finite true 4503599627370496 (-52)) by (vm_compute; reflexivity).
  assert (X21 : B2SF (mfun m 2 1) = SpecFloat.S754_finite true 6192449487634432 (-102)) by (vm_compute; reflexivity).
  assert (X22 : B2SF (mfun m 2 2) = SpecFloat.S754_finite true 6473924464345088 (-102)) by (vm_compute; reflexivity).
  assert (X11 : B2SF (mfun m 1 1) = SpecFloat.S754_finite true 4845979331365560 (-58)) by (vm_compute; reflexivity).
  set (t := fsqrt (add (mul (mfun m 0 0) (mfun m 0 0)) (mul (mfun m 1 0) (mfun m 1 0)))).
  assert (Xt : B2SF t = SpecFloat.S754_finite false 4505798114017120 (-101)) by (vm_compute; reflexivity).
  assert (Fm : forall x s n k, B2SF x = SpecFloat.S754_finite s n k -> is_finite (x : f64) = true) by (intros x s n k Hx; destruct x; try discriminate Hx; reflexivity).
  pose proof (Fm _ _ _ _ X00) as F00. pose proof (Fm _ _ _ _ X10) as F10. pose proof (Fm _ _ _ _ X20) as F20. pose proof (Fm _ _ _ _ X21) as F21. pose proof (Fm _ _ _ _ X22) as F22. pose proof (Fm _ _ _ _ Xt) as Ft.
  apply B2R_of_SF in X00. apply B2R_of_SF in X10. apply B2R_of_SF in X20. apply B2R_of_SF in X21. apply B2R_of_SF in X22. apply B2R_of_SF in Xt. apply B2R_of_SF in X11.
  change (bpow radix2 (-102)) with (/ 5070602400912917605986812821504) in *. change (bpow radix2 (-52)) with (/ 4503599627370496) in *. change (bpow radix2 (-58)) with (/ 288230376151711744) in *.
  change (bpow radix2 (-101)) with (/ 2535301200456458802993406410752) in *.
  assert (V00 : B2R (mfun m 0 0) = 125 / 10 * u53) by lra. assert (V10 : B2R (mfun m 1 0) = - 10 * u53) by lra. assert (V20 : B2R (mfun m 2 0) = -1) by lra.
  assert (V21 : B2R (mfun m 2 1) = - 11 * u53) by lra. assert (V22 : B2R (mfun m 2 2) = - (115 / 10) * u53) by lra. assert (Vt : 16 * u53 <= B2R t <= 17 * u53) by lra. assert (V11 : - (2 / 100) <= B2R (mfun m 1 1)) by lra.
  pose proof (lock_core O m t M eq_refl F00 F10 F20 F21 F22 Ft V00 V10 V20 V21 V22 Vt) as G. unfold q_to_euler_angles. fold m. clear - G V11. clearbody m.
  destruct (rotation_to_euler m) as ((y & p) & q). rewrite Rabs_left; lra.
Qed.

(** *** correctly rounded functions meet the hypotheses *)
Lemma near_ok4 r : Rabs r < 4 -> is_finite (near r) = true /\ Rabs (B2R (near r) - r) <= 2 * u53 /\ Rabs (B2R (near r)) <= 4.
Proof.
  intros L. unfold near. set (fe := FLT_exp (3 - 1024 - 53) 53). set (r' := round radix2 fe ZnearestE r).
  assert (G : generic_format radix2 fe r') by (apply generic_format_round; [apply FLT_exp_valid; exact prec53|apply valid_rnd_N]).
  assert (B : Rabs r' <= 4).
  { apply abs_round_le_generic; [apply FLT_exp_valid; exact prec53|apply valid_rnd_N| |lra]. change 4 with (bpow radix2 2). apply generic_format_bpow. unfold fe, FLT_exp. lia. }
  pose proof (binary_normalize_correct 53 1024 ProofsFloatAngles.prec53 ProofsFloatAngles.emax1024 mode_NE (Ztrunc (scaled_mantissa radix2 fe r')) (cexp radix2 fe r') false) as C. cbn [round_mode] in C. cbv zeta in C.
  assert (E : F2R (Defs.Float radix2 (Ztrunc (scaled_mantissa radix2 fe r')) (cexp radix2 fe r')) = r') by (symmetry; exact G). rewrite E in C. rewrite fe_eq in C. fold fe in C.
  rewrite (round_generic radix2 fe ZnearestE r' G) in C. rewrite Rlt_bool_true in C.
  - destruct C as (C1 & C2 & _). split; [exact C2| ]. rewrite C1. split; [ |exact B].
    pose proof (error_le_half_ulp radix2 fe (fun z => negb (Z.even z)) r) as H. fold r' in H. eapply Rle_trans; [exact H| ].
    destruct (Req_dec r 0) as [->|N].
    + unfold ulp. rewrite Req_bool_true by reflexivity. destruct (negligible_exp_FLT (3 - 1024 - 53) 53) as (n & Hn & Hm). fold fe in Hn. rewrite Hn.
      unfold FloatFacts.uro. assert (bpow radix2 (fe n) <= bpow radix2 (1 - 53)) by (apply bpow_le; unfold fe, FLT_exp; lia). pose proof (bpow_gt_0 radix2 (1 - 53)). lra.
    + rewrite ulp_neq_0 by exact N. unfold cexp, FloatFacts.uro. assert (M : (mag radix2 r <= 2)%Z) by (apply mag_le_bpow; [exact N|change (bpow radix2 2) with 4; exact L]).
      assert (bpow radix2 (fe (mag radix2 r)) <= bpow radix2 (1 + (1 - 53))) by (apply bpow_le; unfold fe, FLT_exp; lia). rewrite bpow_plus in H0. change (bpow radix2 1) with 2 in H0. lra.
  - eapply Rle_lt_trans; [exact B| ]. change 4 with (bpow radix2 2). apply bpow_lt. reflexivity.
Qed.

Lemma crO_math : math_ok (O := crO) (21 / 10 * u53).
Proof.
  pose proof (uro_pos (prec := 53)) as P. pose proof uro53 as U. pose proof PI_RGT_0 as P0. pose proof PI_4 as P4.
  assert (P5 : PI < 4). { pose proof (PI_ineq 1) as [_ Q]. unfold tg_alt, PI_tg in Q. cbn in Q. lra. }
  split; [ |split; [ |split]].
  - intros x _ _. destruct (crO_trig x) as [[A B] [C D]]. split; split; [exact A|eapply Rle_trans; [exact B|lra]|exact C|eapply Rle_trans; [exact D|lra]].
  - intros y x Fy Fx N. change (fatan2 y x) with (near (Ratan2 (B2R y) (B2R x))).
    destruct (Ratan2_spec (B2R x) (B2R y) ltac:(destruct N; auto)) as (_ & C & S & Rg). set (a := Ratan2 (B2R y) (B2R x)) in *. clearbody a.
    destruct (near_ok4 a ltac:(apply Rabs_lt; lra)) as (F & Er & B). rewrite <- C, <- S.
    split; [exact F|split; [exact B|split]].
    + eapply Rle_trans; [apply cos_lip|lra].
    + eapply Rle_trans; [apply sin_lip|lra].
  - apply (near_ok4 (PI / 2)). apply Rabs_lt. lra.
  - destruct (near_ok4 (PI / 2) ltac:(apply Rabs_lt; lra)) as (_ & Er & _). change (FRAC_PI_2 : f64) with (near (PI / 2)). lra.
Qed.

Lemma product_pitch y p q : cos_pitch (euler_product None y p q) = Rabs (cos p).
Proof.
  unfold cos_pitch. replace (mfun (euler_product None y p q) 0 0 * mfun (euler_product None y p q) 0 0 + mfun (euler_product None y p q) 1 0 * mfun (euler_product None y p q) 1 0) with (Rsqr (cos p)).
  - apply sqrt_Rsqr_abs.
  - unfold Rsqr. assert (A : mfun (euler_product None y p q) 0 0 = cos y * cos p) by (unfold euler_product; cbn [seq_axes]; lazy -[Rplus Rmult Ropp Rminus sin cos IZR]; ring).
    assert (B : mfun (euler_product None y p q) 1 0 = sin y * cos p) by (unfold euler_product; cbn [seq_axes]; lazy -[Rplus Rmult Ropp Rminus sin cos IZR]; ring).
    rewrite A, B. pose proof (sin2_cos2' y) as S. transitivity ((sin y * sin y + cos y * cos y) * (cos p * cos p)); [rewrite S; ring|ring].
Qed.
Lemma cos1 : / 2 <= cos 1.
Proof. replace (/ 2) with (cos (PI / 3)) by (rewrite cos_PI3; lra). left. apply cos_decreasing_1; pose proof PI_RGT_0; assert (3 < PI) by (pose proof PI2_3_2; lra); lra. Qed.

#[local] Existing Instance crO.
(** the angles 1, 1, 2 survive: matrix and quaternion *)
Example C98_case_regular : let m := euler_to_rotation (fofZ 1 : f64) (fofZ 1) (fofZ 2) None in let r := euler_product None 1 1 2 in
  close3 (/ 10 ^ 12) m r /\ close3 (/ 10 ^ 12) (rebuilt_f m) r /\
  (let '(y, p, q) := q_to_euler_angles (q_from_euler_angles (fofZ 1 : f64) (fofZ 1) (fofZ 2)) in close3 (/ 10 ^ 11) (euler_to_rotation y p q None) r).
Proof.
  intros m r. pose proof uro53 as U. pose proof (uro_pos (prec := 53)) as P. pose proof crO_trig as T. pose proof crO_math as M.
  assert (F1 : is_finite (fofZ 1 : f64) = true /\ B2R (fofZ 1 : f64) = 1) by apply (fofZ_int (prec := 53) (emax := 1024) 1 ltac:(cbn; lia)).
  assert (F2 : is_finite (fofZ 2 : f64) = true /\ B2R (fofZ 2 : f64) = 2) by apply (fofZ_int (prec := 53) (emax := 1024) 2 ltac:(cbn; lia)).
  assert (Hr : SO3 r).
  { unfold r, euler_product. cbn [seq_axes]. apply (SO3_mul R_ring); [apply (SO3_mul R_ring); [exact (proj2 (proj2 (axis_SO3 _)))|exact (proj1 (proj2 (axis_SO3 _)))]|exact (proj1 (axis_SO3 _))]. }
  assert (W : / 2 <= cos_pitch r) by (unfold r; rewrite product_pitch; pose proof cos1; rewrite Rabs_pos_eq; lra).
  assert (I2 : / cos_pitch r <= 2) by (apply Rinv_le_contravar in W; [ |lra]; lra). assert (I0 : 0 < / cos_pitch r) by (apply Rinv_0_lt_compat; lra).
  pose proof (c96_euler_to_rotation (prec := 53) (emax := 1024) ltac:(lia) ltac:(lia) (11 / 10 * u53) (fofZ 1) (fofZ 1) (fofZ 2) None (T _) (T _) (T _) ltac:(lra) ltac:(discriminate)) as C.
  rewrite (proj2 F1), (proj2 F2) in C. fold m r in C.
  split; [apply (close_weaken _ _ _ _ C); lra|split].
  - pose proof (c98_regular_partial (prec := 53) (emax := 1024) ltac:(lia) ltac:(lia) _ _ m r M ltac:(lra) Hr C ltac:(lra)) as G. apply (close_weaken _ _ _ _ G).
    unfold Rdiv. set (k := / cos_pitch r) in *. assert (9 * (61 * / 10 * (11 * / 10 * u53) + 187 * / 10 * u53) * k <= 9 * (61 * / 10 * (11 * / 10 * u53) + 187 * / 10 * u53) * 2) by (apply Rmult_le_compat_l; lra). lra.
  - destruct (c96_from_euler_angles (prec := 53) (emax := 1024) ltac:(lia) ltac:(lia) _ (fofZ 1) (fofZ 1) (fofZ 2) (proj1 F1) (proj1 F1) (proj1 F2) (T _) (T _) (T _) ltac:(lra)) as (A & UA & EA & CA).
    rewrite (proj2 F1), (proj2 F2) in EA. fold r in EA.
    pose proof (c98_quaternion_partial (prec := 53) (emax := 1024) ltac:(lia) ltac:(lia) _ _ _ A M ltac:(lra) UA CA ltac:(lra)) as G. rewrite EA in G. specialize (G ltac:(lra)).
    destruct (q_to_euler_angles _) as ((y & p) & q). apply (close_weaken _ _ _ _ G).
    unfold Rdiv. set (k := / cos_pitch r) in *. match goal with |- ?z * k + _ + _ <= _ => assert (z * k <= z * 2) by (apply Rmult_le_compat_l; lra) end. lra.
Qed.

(** a quarter turn about the second axis *)
Example C98_case_lock : let m := [| [| zero; zero; one |]; [| zero; one; zero |]; [| neg one; zero; zero |] |] : M33 f64 in
  close3 (/ 10 ^ 12) (rebuilt_f m) ([| [| 0; 0; 1 |]; [| 0; 1; 0 |]; [| -1; 0; 0 |] |] : M33 R).
Proof.
  intros m. set (r := [| _; _; _ |] : M33 R). pose proof uro53 as U. pose proof (uro_pos (prec := 53)) as P. pose proof crO_math as M.
  assert (Hr : SO3 r) by (unfold SO3, r; split; [ |split]; lazy -[Rplus Rmult Ropp Rminus IZR]; repeat f_equal; ring).
  assert (C : close3 0 m r).
  { split.
    - intros i j Hi Hj. ij i j Hi Hj; vm_compute; reflexivity.
    - right. rewrite <- sqrt_0. f_equal. assert (V : forall i j, (i < 3)%nat -> (j < 3)%nat -> B2R (mfun m i j) = mfun r i j).
      { assert (V1 : B2R (Bone : f64) = 1) by apply Bone_correct. intros i j Hi Hj. ij i j Hi Hj; try reflexivity; try exact V1.
        change (B2R (Bopp Bone : f64) = -1). rewrite B2R_Bopp, V1. ring. }
      lazy [sumn add mul zero R_Num]. rewrite !V by lia. unfold Rminus. rewrite !Rplus_opp_r. ring. }
  pose proof (c98_lock (prec := 53) (emax := 1024) ltac:(lia) ltac:(lia) _ 0 m r M ltac:(lra) Hr C ltac:(lra)) as G.
  apply (close_weaken (18 * 0 + 125 * u53 + 26 * (21 / 10 * u53))); [ |lra]. apply G. left.
  assert (E : snd (fst (rotation_to_euler m)) = FRAC_PI_2).
  { destruct (to_euler_cases m) as [(s & _ & ->)|(_ & _ & ->)]; cbn [fst snd]; (transitivity (near (Ratan2 1 0)); [ |change (FRAC_PI_2 : f64) with (near (PI / 2)); f_equal; unfold Ratan2; repeat destruct (Rlt_dec _ _); lra]);
      unfold f_pitch; (assert (X : B2R (fsqrt (add (mul (mfun m 0 0) (mfun m 0 0)) (mul (mfun m 1 0) (mfun m 1 0)))) = 0) by reflexivity);
      (assert (Y : B2R (neg (mfun m 2 0)) = 1) by (change (B2R (Bopp (Bopp Bone) : f64) = 1); rewrite !B2R_Bopp, Bone_correct; ring));
      (transitivity (near (Ratan2 (B2R (neg (mfun m 2 0))) (B2R (fsqrt (add (mul (mfun m 0 0) (mfun m 0 0)) (mul (mfun m 1 0) (mfun m 1 0))))))); [reflexivity|rewrite X, Y; reflexivity]). }
  cbv zeta. rewrite E. unfold nearly_equal. cbn [eqb F_Num]. rewrite Beqb_correct by apply M. rewrite Req_bool_true by reflexivity. reflexivity.
Qed.

Example C98_case_refuted : exists a : Quaternion f64, near_unit u53 a /\
  let '(y, p, q) := q_to_euler_angles a in / 10 <= Rabs (B2R (mfun (euler_to_rotation y p q None) 1 1) - B2R (mfun (q_to_rotation a) 1 1)).
Proof. exact (c98_round_trip_refuted crO crO_math). Qed.
