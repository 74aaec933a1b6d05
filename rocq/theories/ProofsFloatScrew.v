(** * ProofsFloatScrew: powers and screw interpolation of float dual quaternions (C100) *)

From Coq Require Import List Arith ZArith Reals Bool Lra Lia.
From Flocq Require Import Core Relative Sterbenz Mult_error IEEE754.BinarySingleNaN.
From Verif Require Import Base Scalar Vec Mat2 Mat3 Mat4 Mat5 Mat6 Slices MatLoops MatOps Quat Transf DualQuat RingDet Spec LoopFacts Entries InstZ InstR RFacts TrigFacts LUFacts QRFacts ProofsRing ProofsQuat ProofsRot ProofsRigid ProofsEuler InstF FloatFacts ProofsFloat ProofsFloat2 ProofsFloatErr ProofsFloatInv ProofsFloatNorm ProofsFloatRot ProofsFloatDrift ProofsFloatRigid ProofsFloatDQ ProofsFloatFromRot ProofsFloatRotH ProofsFloatQR ExpSeries ProofsExp ProofsFloatAngles ProofsFloatEuler ProofsFloatLog.
Local Open Scope R_scope.

Lemma nrm4_split f : nrm 4 f <= Rabs (f 0%nat) + nrm 3 (fun i => f (S i)).
Proof.
  apply nrm_le; [pose proof (nrm_pos 3 (fun i => f (S i))); pose proof (Rabs_pos (f 0%nat)); lra| ].
  pose proof (nrm_sq 3 (fun i => f (S i))) as Q. pose proof (nrm_pos 3 (fun i => f (S i))) as P. pose proof (Rabs_pos (f 0%nat)) as P0. set (n := nrm 3 (fun i => f (S i))) in *.
  assert (T : sq_sum 4 f = Rabs (f 0%nat) * Rabs (f 0%nat) + sq_sum 3 (fun i => f (S i))).
  { rewrite <- Rabs_mult, (Rabs_pos_eq (f 0%nat * f 0%nat)) by nra. unfold sq_sum, sumn. cbn [seq fold_right map]. lazy [add zero R_Num sumn]. ring. }
  rewrite T. nra.
Qed.

Section F.
Context {prec emax : Z} {Hp : Prec_gt_0 prec} {He : Prec_lt_emax prec emax} {O : FOracle (binary_float prec emax)}.
Notation fl := (binary_float prec emax).
Notation uro := (uro (prec := prec)).
Notation eta := (eta (prec := prec) (emax := emax)).
Hypothesis Hp11 : (11 <= prec)%Z.
Hypothesis He4 : (4 * prec <= emax)%Z.

(** ** the undefined cases of the math library *)
(** the arc cosine of a number beyond 1 is NaN, and so are the sine and cosine of NaN *)
Definition nan_math : Prop :=
  (forall x : fl, is_finite x = true -> 1 < Rabs (B2R x) -> facos x = B754_nan) /\ fsin (B754_nan : fl) = B754_nan /\ fcos (B754_nan : fl) = B754_nan.
Definition all_nan (a : DualQuaternion fl) : Prop :=
  forall k, (k < 4)%nat -> qcomp k (dq_real a) = B754_nan /\ qcomp k (dq_dual a) = B754_nan.

Lemma nan_r (x : fl) : mul x B754_nan = B754_nan /\ add x B754_nan = B754_nan /\ sub x B754_nan = B754_nan /\ div x B754_nan = B754_nan.
Proof. destruct x; repeat split; reflexivity. Qed.
Lemma nan_l (x : fl) : mul B754_nan x = B754_nan /\ add B754_nan x = B754_nan /\ sub B754_nan x = B754_nan /\ div B754_nan x = B754_nan.
Proof. destruct x; repeat split; reflexivity. Qed.

Lemma mul_nr (x : fl) : mul x B754_nan = B754_nan. Proof. apply nan_r. Qed.
Lemma mul_nl (x : fl) : mul B754_nan x = B754_nan. Proof. apply nan_l. Qed.
Lemma add_nr (x : fl) : add x B754_nan = B754_nan. Proof. apply nan_r. Qed.
Lemma add_nl (x : fl) : add B754_nan x = B754_nan. Proof. apply nan_l. Qed.
Lemma sub_nr (x : fl) : sub x B754_nan = B754_nan. Proof. apply nan_r. Qed.
Lemma sub_nl (x : fl) : sub B754_nan x = B754_nan. Proof. apply nan_l. Qed.
Lemma div_nr (x : fl) : div x B754_nan = B754_nan. Proof. apply nan_r. Qed.
Lemma div_nl (x : fl) : div B754_nan x = B754_nan. Proof. apply nan_l. Qed.
Ltac nan := repeat first [rewrite mul_nr|rewrite mul_nl|rewrite add_nr|rewrite add_nl|rewrite sub_nr|rewrite sub_nl|rewrite div_nr|rewrite div_nl].

Lemma c100_pow_nan : forall (a : DualQuaternion fl) x, nan_math -> is_finite (qcomp 0 (dq_real a)) = true -> 1 < Rabs (B2R (qcomp 0 (dq_real a))) -> all_nan (dq_pow a x).
Proof.
  intros a x (NA & NS & NC) F L. destruct a as [[w (v0 & v1 & v2 & []) fr] [w' (d0 & d1 & d2 & []) fd] f]. change (is_finite w = true) in F. change (1 < Rabs (B2R w)) in L.
  specialize (NA w F L). unfold dq_pow. cbn [dq_real dq_dual q_real_ q_dual_ q_real q_imag Quat.q Quat.q0]. unfold q_real, q_imag. cbn [Quat.q Quat.q0]. rewrite NA.
  destruct (nan_r (add one one)) as (-> & _). unfold sin_cos. destruct (nan_l (add one one)) as (_ & _ & _ & ->). rewrite NS, NC.
  change (nearly_zero (B754_nan : fl)) with false. cbv iota beta zeta.
  destruct (nan_r x) as (-> & _). destruct (nan_l (add one one)) as (_ & _ & _ & ->). rewrite NS, NC.
  intros k Hk. unfold dq_new, dq_real, dq_dual, q_new, v3_scale, v3_div, v3_add, v3_sub. cbn [q_real_ q_dual_].
  destruct k as [ |[ |[ |[ |k]]]]; [ | | | |lia]; unfold qcomp; cbn [Quat.q Quat.q0]; lazy [ix0 ix1 ix2 ahd atl acons anil fst snd vfun List.nth alist];
  nan; split; reflexivity.
Qed.

Lemma mul_all_nan (s a : DualQuaternion fl) : all_nan a -> all_nan (dq_mul s a).
Proof.
  intros N. destruct a as [[w (v0 & v1 & v2 & []) fr] [w' (d0 & d1 & d2 & []) fd] f].
  assert (W : w = B754_nan /\ w' = B754_nan) by exact (N 0%nat ltac:(lia)). assert (A0 : v0 = B754_nan /\ d0 = B754_nan) by exact (N 1%nat ltac:(lia)).
  assert (A1 : v1 = B754_nan /\ d1 = B754_nan) by exact (N 2%nat ltac:(lia)). assert (A2 : v2 = B754_nan /\ d2 = B754_nan) by exact (N 3%nat ltac:(lia)).
  destruct W as [-> ->], A0 as [-> ->], A1 as [-> ->], A2 as [-> ->]. clear N.
  destruct s as [[x (y0 & y1 & y2 & []) gr] [x' (e0 & e1 & e2 & []) gd] g].
  intros k Hk. unfold dq_mul, dq_new, dq_real, dq_dual, q_mul, q_add, q_new, v3_scale, v3_add, v3_sub, v3_dot, v3_cross. cbn [q_real_ q_dual_ Quat.q Quat.q0].
  destruct k as [ |[ |[ |[ |k]]]]; [ | | | |lia]; unfold qcomp; cbn [Quat.q Quat.q0]; lazy [ix0 ix1 ix2 ahd atl acons anil fst snd vfun List.nth alist];
  nan; split; reflexivity.
Qed.

(** ** accuracy of the rotation part of a power *)
(** the quaternion [cos h + u sin h] *)
Definition polar (u : V3 R) (h : R) : Quaternion R := q_new (cos h) (v3_scale u (sin h)).

Lemma c100_pow_rotation_partial : forall e E (a : DualQuaternion fl) (x : fl) (u : V3 R) h, v3_dot u u = 1 -> 0 < h < PI -> close4 E (dq_real a) (polar u h) -> acos_ok e ->
  is_finite x = true -> Rabs (B2R x) <= 1 -> 100 * (E + e + 5 * uro) <= sin h * sin h ->
  close4 ((5 * E + 7 * e + 24 * uro) / (sin h * sin h)) (dq_real (dq_pow a x)) (polar u (B2R x * h)).
Proof.
  intros e E a x u h Uu H C A Fx Lx L. pose proof (uro_small Hp11) as U. pose proof (uro_pos (prec := prec)) as P. pose proof (eta_tiny Hp11 He4) as Et. assert (T0 : 0 <= eta) by apply eta_pos.
  destruct C as [F C]. rewrite close4_nrm in C. assert (E0 : 0 <= E) by (eapply Rle_trans; [apply nrm_pos|exact C]). pose proof (acos_pos e A) as e0.
  pose proof (sin_gt_0 h ltac:(lra) ltac:(lra)) as S0. pose proof (SIN_bound h) as [_ S1]. pose proof pi_32 as P32. set (s := sin h) in *.
  assert (SS : 0 < s * s <= 1) by nra.
  (* the half angle *)
  set (w := qcomp 0 (dq_real a)). pose proof (F 0%nat ltac:(lia)) as Fw. fold w in Fw.
  assert (Vw : Rabs (B2R w - cos h) <= E) by (eapply Rle_trans; [exact (comp_nrm 4 (fun k => qR (dq_real a) k - rq (polar u h) k) 0%nat ltac:(lia))|exact C]).
  destruct (acos_near h (B2R w) E H Vw ltac:(fold s; lra)) as (X1 & Fr & CA & SA & AT & AS). fold s in SA, AT, AS.
  destruct A as [A1 A2]. destruct (A2 w Fw ltac:(apply Rabs_le; lra)) as [Fc Vc]. set (ac := facos w) in *. set (f := acos (B2R w)) in *.
  assert (Es' : s * (E / s) = E) by (field; lra). set (q := E / s) in *. assert (q0 : 0 <= q) by (unfold q; apply Rmult_le_pos; [lra|left; apply Rinv_0_lt_compat, S0]). clearbody q.
  assert (Q100 : 100 * q + 100 * e + 500 * uro <= s).
  { apply (Rmult_le_reg_l s); [exact S0| ]. assert (s * e <= 1 * e) by (apply Rmult_le_compat_r; lra). assert (s * uro <= 1 * uro) by (apply Rmult_le_compat_r; lra). lra. }
  assert (DA : Rabs (f - h) <= 117 / 100 * q) by (apply (Rmult_le_reg_l s); [exact S0| ]; lra).
  assert (DB : Rabs (sin f - s) <= 108 / 100 * q) by (apply (Rmult_le_reg_l s); [exact S0| ]; lra).
  apply Rabs_le_inv in DA, DB, Vc.
  destruct (two_val (emax := emax) Hp11) as [T1 T2].
  assert (M2 : Rabs (B2R (add one one : fl) * B2R ac) <= 66 / 10) by (rewrite T2; apply Rabs_le; lra).
  destruct (mul_ok Hp11 He4 (add one one) ac T1 Fc ltac:(lra)) as [Fth Vth]. set (th := mul (add one one) ac) in *. rewrite T2 in M2, Vth.
  assert (Vth' : Rabs (B2R th - 2 * B2R ac) <= 67 / 10 * uro) by (eapply Rle_trans; [exact Vth| ]; assert (uro * Rabs (2 * B2R ac) <= uro * (66 / 10)) by (apply Rmult_le_compat_l; lra); lra).
  apply Rabs_le_inv in Vth'. clear Vth.
  destruct (half_div Hp11 He4 th (add one one) Fth T1 T2) as [Fh Vh]. set (hh := div th (add one one)) in *. apply Rabs_le_inv in Vh.
  assert (Dh : - (117 / 100 * q + e + 34 / 10 * uro) <= B2R hh - h <= 117 / 100 * q + e + 34 / 10 * uro) by lra.
  assert (Df : Rabs (B2R hh - f) <= e + 34 / 10 * uro) by (apply Rabs_le; lra).
  assert (Bh : Rabs (B2R hh) <= 4) by (apply Rabs_le; lra). destruct (A1 hh Fh Bh) as [[Fs Vs] _]. set (sn := fsin hh) in *.
  assert (Ds : Rabs (B2R sn - s) <= 108 / 100 * q + 2 * e + 34 / 10 * uro).
  { replace (B2R sn - s) with ((B2R sn - sin (B2R hh)) + ((sin (B2R hh) - sin f) + (sin f - s))) by ring. eapply Rle_trans; [apply Rabs_triang| ].
    pose proof (sin_lip (B2R hh) f). pose proof (Rabs_triang (sin (B2R hh) - sin f) (sin f - s)). assert (Rabs (sin f - s) <= 108 / 100 * q) by (apply Rabs_le; lra). lra. }
  assert (sn0 : 97 / 100 * s <= B2R sn) by (apply Rabs_le_inv in Ds; lra). assert (snp : 0 < B2R sn) by lra.
  (* the exponent times the angle *)
  assert (Mx : Rabs (B2R x * B2R th) <= 66 / 10).
  { rewrite Rabs_mult. replace (66 / 10) with (1 * (66 / 10)) by ring. apply Rmult_le_compat; try apply Rabs_pos; [exact Lx|apply Rabs_le; lra]. }
  destruct (mul_ok Hp11 He4 x th Fx Fth ltac:(lra)) as [Fm Vm].
  assert (Vm' : Rabs (B2R (mul x th) - B2R x * B2R th) <= 67 / 10 * uro) by (eapply Rle_trans; [exact Vm| ]; assert (uro * Rabs (B2R x * B2R th) <= uro * (66 / 10)) by (apply Rmult_le_compat_l; lra); lra).
  apply Rabs_le_inv in Vm'. destruct (half_div Hp11 He4 (mul x th) (add one one) Fm T1 T2) as [Fy Vy]. set (y := div (mul x th) (add one one)) in *. apply Rabs_le_inv in Vy.
  assert (Dy : Rabs (B2R y - B2R x * h) <= 117 / 100 * q + e + 7 * uro).
  { replace (B2R y - B2R x * h) with ((B2R y - B2R (mul x th) / 2) + ((B2R (mul x th) - B2R x * B2R th) / 2 + B2R x * (B2R th / 2 - h))) by field.
    eapply Rle_trans; [apply Rabs_triang| ]. eapply Rle_trans; [apply Rplus_le_compat_l, Rabs_triang| ].
    assert (Rabs (B2R y - B2R (mul x th) / 2) <= eta) by (apply Rabs_le; lra). assert (Rabs ((B2R (mul x th) - B2R x * B2R th) / 2) <= 335 / 100 * uro) by (apply Rabs_le; lra).
    assert (Rabs (B2R x * (B2R th / 2 - h)) <= 1 * (117 / 100 * q + e + 335 / 100 * uro)) by (rewrite Rabs_mult; apply Rmult_le_compat; try apply Rabs_pos; [exact Lx|apply Rabs_le; lra]). lra. }
  assert (By : Rabs (B2R y) <= 4).
  { replace (B2R y) with ((B2R y - B2R x * h) + B2R x * h) by ring. eapply Rle_trans; [apply Rabs_triang| ].
    assert (Rabs (B2R x * h) <= 1 * (32 / 10)) by (rewrite Rabs_mult; apply Rmult_le_compat; try apply Rabs_pos; [exact Lx|rewrite Rabs_pos_eq; lra]). lra. }
  destruct (A1 y Fy By) as [[Fsy Vsy] [Fcy Vcy]]. set (sy := fsin y) in *. set (cy := fcos y) in *. set (X := B2R x * h) in *.
  assert (Dc : Rabs (B2R cy - cos X) <= 117 / 100 * q + 2 * e + 7 * uro).
  { replace (B2R cy - cos X) with ((B2R cy - cos (B2R y)) + (cos (B2R y) - cos X)) by ring. eapply Rle_trans; [apply Rabs_triang| ]. pose proof (cos_lip (B2R y) X). lra. }
  assert (Dsy : Rabs (B2R sy - sin X) <= 117 / 100 * q + 2 * e + 7 * uro).
  { replace (B2R sy - sin X) with ((B2R sy - sin (B2R y)) + (sin (B2R y) - sin X)) by ring. eapply Rle_trans; [apply Rabs_triang| ]. pose proof (sin_lip (B2R y) X). lra. }
  (* the branch *)
  assert (NZ : nearly_zero th = false).
  { rewrite nearly_zero_float. destruct epsilon_val as [Fe Ve]. rewrite Bltb_correct by (rewrite ?is_finite_Babs; assumption). rewrite B2R_Babs, Ve. apply Rlt_bool_false.
    assert (Wu : bpow radix2 (1 - prec) = 2 * uro) by (unfold FloatFacts.uro; lra). rewrite Wu. assert (sh : s <= h) by (pose proof (sin_abs h) as Q; fold s in Q; rewrite !Rabs_pos_eq in Q by lra; exact Q).
    rewrite Rabs_pos_eq; lra. }
  assert (V : forall k, (k < 4)%nat -> qcomp k (dq_real (dq_pow a x)) = match k with 0%nat => cy | S i => mul (div (vfun (Quat.q (dq_real a)) i) sn) sy end).
  { assert (EP : dq_real (dq_pow a x) = q_new cy (v3_scale (v3_div (Quat.q (dq_real a)) sn) sy)).
    { unfold dq_pow, sin_cos, q_real, q_imag. change (facos (Quat.q0 (dq_real a))) with ac. fold th. rewrite NZ. reflexivity. }
    intros k Hk. rewrite EP. generalize (Quat.q (dq_real a)). intros v. destruct v as (v0&v1&v2&[]). destruct k as [ |[ |[ |[ |k]]]]; try reflexivity. exfalso. lia. }
  set (K := 117 / 100 * q + 2 * e + 7 * uro) in *. assert (K0 : 0 <= K) by (unfold K; lra). assert (K2 : K <= 2 / 100) by (unfold K; lra).
  set (uu := vfun u). set (vv := fun i => B2R (vfun (Quat.q (dq_real a)) i)). set (sg := B2R sn) in *.
  assert (Nu : nrm 3 uu = 1).
  { unfold nrm. rewrite <- sqrt_1. f_equal. rewrite <- Uu. unfold sq_sum, uu. destruct u as (u0&u1&u2&[]). lazy [sumn vfun alist List.nth v3_dot ix0 ix1 ix2 ahd atl fst snd add mul zero R_Num]. ring. }
  assert (Nd : nrm 3 (fun i => vv i - s * uu i) <= E).
  { eapply Rle_trans; [ |exact C]. eapply Rle_trans; [ |apply nrm_tail]. apply Req_le. apply nrm_ext. intros k Hk. unfold qR, rq, vv, uu, polar, s. destruct u as (u0&u1&u2&[]).
    destruct k as [ |[ |[ |k]]]; [ | | |lia]; lazy [qcomp q_new Quat.q v3_scale vfun alist List.nth ix0 ix1 ix2 ahd atl acons anil fst snd mul R_Num]; ring. }
  set (pp := fun i => vv i / sg).
  assert (Np : s * nrm 3 (fun i => pp i - uu i) <= 1031 / 1000 * (208 / 100 * q + 2 * e + 34 / 10 * uro)).
  { rewrite (nrm_ext 3 _ (fun i => / sg * ((vv i - s * uu i) + (s - sg) * uu i))) by (intros k _; unfold pp; field; lra). rewrite nrm_scal.
    pose proof (nrm_plus 3 (fun i => vv i - s * uu i) (fun i => (s - sg) * uu i)) as T. cbv beta in T. rewrite (nrm_scal 3 (s - sg)), Nu, Rabs_minus_sym in T.
    assert (sE : E <= q) by (assert (s * q <= 1 * q) by (apply Rmult_le_compat_r; lra); lra).
    set (n3 := nrm 3 (fun i => vv i - s * uu i + (s - sg) * uu i)) in *. assert (n30 : 0 <= n3) by apply nrm_pos. rewrite Rabs_pos_eq by (left; apply Rinv_0_lt_compat, snp).
    assert (H2 : s * / sg <= 1031 / 1000) by (apply (Rmult_le_reg_r sg); [lra| ]; rewrite Rmult_assoc, Rinv_l by lra; lra).
    replace (s * (/ sg * n3)) with (s * / sg * n3) by ring. apply Rmult_le_compat; [apply Rmult_le_pos; [lra|left; apply Rinv_0_lt_compat, snp]|exact n30|exact H2|lra]. }
  set (dp := nrm 3 (fun i => pp i - uu i)) in *.
  assert (dp5 : dp <= 5 / 100) by (apply (Rmult_le_reg_l s); [exact S0| ]; lra).
  assert (Bu : forall i, (i < 3)%nat -> Rabs (uu i) <= 1) by (intros i Hi; rewrite <- Nu; apply comp_nrm, Hi).
  assert (Bp : forall i, (i < 3)%nat -> Rabs (pp i) <= 105 / 100).
  { intros i Hi. replace (pp i) with ((pp i - uu i) + uu i) by ring. eapply Rle_trans; [apply Rabs_triang| ]. pose proof (Bu i Hi). pose proof (comp_nrm 3 (fun i => pp i - uu i) i Hi) as T. fold dp in T. cbv beta in T. lra. }
  assert (Bsy : Rabs (B2R sy) <= 102 / 100) by (pose proof (SIN_bound X); apply Rabs_le_inv in Dsy; apply Rabs_le; lra).
  set (mm := fun i => mul (div (vfun (Quat.q (dq_real a)) i) sn) sy).
  assert (G : forall i, (i < 3)%nat -> is_finite (mm i) = true /\ Rabs (B2R (mm i) - pp i * B2R sy) <= 225 / 100 * uro).
  { intros i Hi. assert (Fv : is_finite (vfun (Quat.q (dq_real a)) i) = true) by exact (F (S i) ltac:(lia)). pose proof (Bp i Hi) as B.
    destruct (div_error (vfun (Quat.q (dq_real a)) i) sn Fv (Rgt_not_eq _ _ snp) ltac:(change (Rabs (pp i) <= 2); lra)) as (Fg & d & hb & Ld & Lh & Vg). unfold mm. change (div (vfun (Quat.q (dq_real a)) i) sn) with (Bdiv mode_NE (vfun (Quat.q (dq_real a)) i) sn).
    set (g := Bdiv mode_NE (vfun (Quat.q (dq_real a)) i) sn) in *. change (B2R (vfun (Quat.q (dq_real a)) i) / B2R sn) with (pp i) in Vg.
    assert (Dg : Rabs (B2R g - pp i) <= 106 / 100 * uro).
    { rewrite Vg. replace (pp i * (1 + d) + hb - pp i) with (pp i * d + hb) by ring. eapply Rle_trans; [apply Rabs_triang| ]. rewrite Rabs_mult.
      assert (Rabs (pp i) * Rabs d <= 105 / 100 * uro) by (apply Rmult_le_compat; try apply Rabs_pos; assumption). lra. }
    assert (Bg : Rabs (B2R g) <= 106 / 100) by (replace (B2R g) with ((B2R g - pp i) + pp i) by ring; eapply Rle_trans; [apply Rabs_triang| ]; lra).
    assert (Bm : Rabs (B2R g * B2R sy) <= 109 / 100) by (rewrite Rabs_mult; apply Rle_trans with (106 / 100 * (102 / 100)); [apply Rmult_le_compat; try apply Rabs_pos; assumption|lra]).
    destruct (mul_ok Hp11 He4 g sy Fg Fsy ltac:(lra)) as [Fz Vz]. split; [exact Fz| ].
    replace (B2R (mul g sy) - pp i * B2R sy) with ((B2R (mul g sy) - B2R g * B2R sy) + (B2R g - pp i) * B2R sy) by ring. eapply Rle_trans; [apply Rabs_triang| ]. rewrite (Rabs_mult (B2R g - pp i)).
    assert (Rabs (B2R g - pp i) * Rabs (B2R sy) <= 106 / 100 * uro * (102 / 100)) by (apply Rmult_le_compat; try apply Rabs_pos; assumption).
    assert (uro * Rabs (B2R g * B2R sy) <= uro * (109 / 100)) by (apply Rmult_le_compat_l; lra). lra. }
  assert (N3 : nrm 3 (fun i => B2R (mm i) - uu i * sin X) <= 4 * uro + 102 / 100 * dp + K).
  { rewrite (nrm_ext 3 _ (fun i => (B2R (mm i) - pp i * B2R sy) + (B2R sy * (pp i - uu i) + (B2R sy - sin X) * uu i))) by (intros k _; ring).
    eapply Rle_trans; [apply nrm_plus| ]. eapply Rle_trans; [apply Rplus_le_compat_l, nrm_plus| ]. rewrite !nrm_scal, Nu. fold dp.
    assert (Rabs (B2R sy) * dp <= 102 / 100 * dp) by (apply Rmult_le_compat_r; [apply nrm_pos|exact Bsy]).
    assert (nrm 3 (fun k => B2R (mm k) - pp k * B2R sy) <= 4 * uro); [ |lra].
    eapply Rle_trans; [apply (nrm_bound 3 _ (225 / 100 * uro)); [lra|intros k Hk; exact (proj2 (G k Hk))]| ].
    assert (sqrt (INR 3) <= 1733 / 1000) by (change (INR 3) with (1 + 1 + 1); apply Rsqr_incr_0_var; [rewrite Rsqr_sqrt by lra; unfold Rsqr; lra|lra]).
    assert (sqrt (INR 3) * (225 / 100 * uro) <= 1733 / 1000 * (225 / 100 * uro)) by (apply Rmult_le_compat_r; lra). lra. }
  split.
  { intros k Hk. rewrite (V k Hk). destruct k as [ |k]; [exact Fcy|exact (proj1 (G k ltac:(lia)))]. }
  rewrite close4_nrm. rewrite (nrm_ext 4 _ (fun k => match k with 0%nat => B2R cy - cos X | S i => B2R (mm i) - uu i * sin X end)).
  2: { intros k Hk. unfold qR. rewrite (V k Hk). unfold rq, polar, uu. destruct u as (u0&u1&u2&[]). destruct k as [ |[ |[ |[ |k]]]]; [ | | | |lia]; reflexivity. }
  eapply Rle_trans; [apply nrm4_split| ]. apply (Rmult_le_reg_r (s * s)); [lra| ]. replace ((5 * E + 7 * e + 24 * uro) / (s * s) * (s * s)) with (5 * E + 7 * e + 24 * uro) by (field; lra).
  apply Rle_trans with ((K + (4 * uro + 102 / 100 * dp + K)) * (s * s)); [apply Rmult_le_compat_r; [lra|apply Rplus_le_compat; [exact Dc|exact N3]]| ].
  assert (J1 : s * s * e <= 1 * e) by (apply Rmult_le_compat_r; lra). assert (J2 : s * s * uro <= 1 * uro) by (apply Rmult_le_compat_r; lra).
  assert (J3 : s * s * q <= E) by (replace (s * s * q) with (s * (s * q)) by ring; rewrite Es'; assert (s * E <= 1 * E) by (apply Rmult_le_compat_r; lra); lra).
  assert (J4 : s * s * dp <= 1031 / 1000 * (208 / 100 * E + 2 * e + 34 / 10 * uro)).
  { replace (s * s * dp) with (s * (s * dp)) by ring. eapply Rle_trans; [apply Rmult_le_compat_l; [lra|exact Np]| ].
    assert (s * e <= 1 * e) by (apply Rmult_le_compat_r; lra). assert (s * uro <= 1 * uro) by (apply Rmult_le_compat_r; lra). lra. }
  replace ((K + (4 * uro + 102 / 100 * dp + K)) * (s * s)) with (2 * (117 / 100 * (s * s * q) + 2 * (s * s * e) + 7 * (s * s * uro)) + 4 * (s * s * uro) + 102 / 100 * (s * s * dp)) by (unfold K; ring).
  lra.
Qed.
End F.

#[local] Instance prec53 : Prec_gt_0 53 := eq_refl.
#[local] Instance emax1024 : Prec_lt_emax 53 1024 := eq_refl.
#[local] Notation f64 := (binary_float 53 1024).
#[local] Notation u53 := (FloatFacts.uro (prec := 53)).

(** interpolating between a pose and itself: NaN at every parameter *)
Definition i64 (z : Z) : f64 := fofZ z.
Lemma c100_screw_lerp_refuted : forall O : FOracle f64, nan_math -> exists (rot : Quaternion f64) (t : V3 f64) (D : DualQuaternion f64),
  dq_new_from_rot_trans rot t = Ok D /\ dq_is_normalized D = true
  /\ (forall k, (k < 4)%nat -> is_finite (qcomp k (dq_real D)) = true /\ is_finite (qcomp k (dq_dual D)) = true)
  /\ forall tau, exists r, dq_screw_lerp D D tau = Ok r /\ all_nan r.
Proof.
  intros O N. set (rot := q_new (i64 2) [| i64 1; i64 1; i64 0 |]). set (t := [| i64 1; i64 2; i64 3 |]).
  destruct (dq_new_from_rot_trans rot t) as [D| ] eqn:E1; [ |exfalso; assert (X : match dq_new_from_rot_trans rot t with Ok _ => true | _ => false end = true) by (vm_compute; reflexivity); rewrite E1 in X; discriminate].
  exists rot, t, D. split; [exact E1| ]. 
  assert (B : match dq_new_from_rot_trans rot t with Ok D => dq_normalized D && forallb (fun k => is_finite (qcomp k (dq_real D)) && is_finite (qcomp k (dq_dual D)))%bool (seq 0 4) && negb (ltb (q_real (q_mul (dq_real D) (dq_real D))) zero) | _ => false end = true) by (vm_compute; reflexivity).
  rewrite E1 in B. apply andb_prop in B. destruct B as [B B3]. apply andb_prop in B. destruct B as [B1 B2]. rewrite forallb_forall in B2. apply negb_true_iff in B3.
  split; [unfold dq_is_normalized; rewrite B1; reflexivity| ]. split; [intros k Hk; apply andb_prop, B2, in_seq; lia| ].
  intros tau. unfold dq_screw_lerp. cbv zeta. rewrite B3. unfold dq_inverse. rewrite B1. cbn [bind]. eexists. split; [reflexivity| ].
  apply mul_all_nan. 
  assert (X : match dq_new_from_rot_trans rot t with Ok D => B2SF (qcomp 0 (dq_real (dq_mul (dq_conj D) D))) | _ => SpecFloat.S754_nan end = SpecFloat.S754_finite false 4503599627370497 (-52)) by (vm_compute; reflexivity).
  rewrite E1 in X. apply c100_pow_nan; [exact N| | ].
  - rewrite <- is_finite_SF_B2SF. rewrite X. reflexivity.
  - rewrite (B2R_of_SF _ _ _ _ X). rewrite Rabs_pos_eq. all: unfold F2R; cbn [Fnum Fexp cond_Zopp]. all: change (bpow radix2 (-52)) with (/ 4503599627370496); lra.
Qed.

(** ** a math library that meets the hypotheses: correctly rounded, NaN where undefined *)
Definition nanO : FOracle f64 := {| o_sin := fun x => if is_nan x then B754_nan else near (sin (B2R x)); o_cos := fun x => if is_nan x then B754_nan else near (cos (B2R x)); o_tan := fun x => near (tan (B2R x));
  o_acos := fun x => if Bleb (Babs x) (i64 1) then near (acos (B2R x)) else B754_nan; o_atan2 := fun y x => near (fatan2 (Float := @R_Float f64_consts) (B2R y) (B2R x)); o_exp := fun x => near (exp (B2R x)); o_ln := fun x => near (ln (B2R x));
  o_PI := near PI; o_FRAC_PI_2 := near (PI / 2); o_1em40 := near (/ 10 ^ 40); o_1em6 := near (/ 10 ^ 6); o_1em3 := near (/ 10 ^ 3) |}.

Lemma one64 : is_finite (i64 1) = true /\ B2R (i64 1) = 1.
Proof. exact (fofZ_int (prec := 53) (emax := 1024) 1 ltac:(cbn; lia)). Qed.

Lemma nanO_nan : nan_math (O := nanO).
Proof.
  split; [ |split; reflexivity]. intros x F L. destruct one64 as [F1 V1]. change (facos x) with (if Bleb (Babs x) (i64 1) then near (acos (B2R x)) else B754_nan).
  rewrite Bleb_correct by (rewrite ?is_finite_Babs; assumption). rewrite B2R_Babs, V1, Rle_bool_false by exact L. reflexivity.
Qed.

Lemma nanO_acos : acos_ok (O := nanO) (2 * u53).
Proof.
  destruct crO_acos as [A B]. destruct one64 as [F1 V1]. split.
  - intros x F L. specialize (A x F L). assert (N : is_nan x = false) by (destruct x; (discriminate F || reflexivity)).
    unfold trig_ok. change (fsin (Float := @F_Float 53 1024 _ _ nanO) x) with (if is_nan x then B754_nan else near (sin (B2R x))). change (fcos (Float := @F_Float 53 1024 _ _ nanO) x) with (if is_nan x then B754_nan else near (cos (B2R x))). rewrite N. exact A.
  - intros x F L. specialize (B x F L). change (facos (Float := @F_Float 53 1024 _ _ nanO) x) with (if Bleb (Babs x) (i64 1) then near (acos (B2R x)) else B754_nan).
    rewrite Bleb_correct by (rewrite ?is_finite_Babs; assumption). rewrite B2R_Babs, V1, Rle_bool_true by exact L. exact B.
Qed.

#[local] Existing Instance nanO.
Example C100_case_nan : exists (rot : Quaternion f64) (t : V3 f64) (D : DualQuaternion f64),
  dq_new_from_rot_trans rot t = Ok D /\ exists r, dq_screw_lerp D D (i64 0) = Ok r /\ qcomp 0 (dq_real r) = B754_nan.
Proof.
  destruct (c100_screw_lerp_refuted nanO nanO_nan) as (rot & t & D & E & _ & _ & H). exists rot, t, D. split; [exact E| ]. destruct (H (i64 0)) as (r & Er & N). exists r. split; [exact Er|apply (N 0%nat); lia].
Qed.

Example C100_case_above_one : forall x, all_nan (dq_pow (dq_new (q_new (i64 2) [| i64 0; i64 0; i64 0 |]) (q_new (i64 1) [| i64 1; i64 1; i64 1 |])) x).
Proof.
  intros x. destruct (fofZ_int (prec := 53) (emax := 1024) 2 ltac:(cbn; lia)) as [F V]. apply c100_pow_nan; [exact nanO_nan|exact F| ].
  change (1 < Rabs (B2R (fofZ 2 : f64))). rewrite V, Rabs_pos_eq; lra.
Qed.

(** half of a quarter turn about the third axis *)
Example C100_case_half : let a := dq_new (q_new (near (cos (PI / 4))) [| i64 0; i64 0; near (sin (PI / 4)) |]) (q_new (i64 1) [| i64 1; i64 1; i64 1 |]) in
  close4 (110 * u53) (dq_real (dq_pow a (div (i64 1) (i64 2)))) (polar [| 0; 0; 1 |] (PI / 8)).
Proof.
  intros a. pose proof uro53 as U. pose proof (uro_pos (prec := 53)) as P. pose proof PI_RGT_0 as Pi0.
  assert (X : B2SF (div (i64 1) (i64 2)) = SpecFloat.S754_finite false 4503599627370496 (-53)) by (vm_compute; reflexivity).
  assert (Fx : is_finite (div (i64 1) (i64 2)) = true) by (vm_compute; reflexivity).
  assert (Vx : B2R (div (i64 1) (i64 2)) = / 2).
  { rewrite (B2R_of_SF _ _ _ _ X). unfold F2R; cbn [Fnum Fexp cond_Zopp]. change (bpow radix2 (-53)) with (/ 9007199254740992). lra. }
  assert (Vs : sin (PI / 4) * sin (PI / 4) = / 2) by (rewrite sin_PI4; assert (sqrt 2 * sqrt 2 = 2) by (apply sqrt_sqrt; lra); assert (sqrt 2 <> 0) by (intros Z; rewrite Z in *; lra); field_simplify_eq; [lra|assumption]).
  destruct (near_ok (cos (PI / 4)) ltac:(apply Rabs_le, COS_bound)) as [Fc Vc]. destruct (near_ok (sin (PI / 4)) ltac:(apply Rabs_le, SIN_bound)) as [Fs Vsn].
  destruct (fofZ_int (prec := 53) (emax := 1024) 0 ltac:(cbn; lia)) as [F0 V0].
  assert (C : close4 (3 * u53) (dq_real a) (polar [| 0; 0; 1 |] (PI / 4))).
  { split; [intros k Hk; destruct k as [ |[ |[ |[ |k]]]]; [exact Fc|exact F0|exact F0|exact Fs|lia]| ]. rewrite close4_nrm. eapply Rle_trans; [apply (nrm_bound 4 _ (11 / 10 * u53)); [lra| ]| ].
    - intros k Hk. unfold qR, rq. destruct k as [ |[ |[ |[ |k]]]]; [exact Vc| | | |lia].
      + change (Rabs (B2R (fofZ 0 : f64) - 0 * sin (PI / 4)) <= 11 / 10 * u53). rewrite V0, Rmult_0_l, Rminus_0_r, Rabs_R0. lra.
      + change (Rabs (B2R (fofZ 0 : f64) - 0 * sin (PI / 4)) <= 11 / 10 * u53). rewrite V0, Rmult_0_l, Rminus_0_r, Rabs_R0. lra.
      + change (Rabs (B2R (near (sin (PI / 4))) - 1 * sin (PI / 4)) <= 11 / 10 * u53). rewrite Rmult_1_l. exact Vsn.
    - replace (INR 4) with (2 * 2) by (cbn; ring). rewrite sqrt_square by lra. lra. }
  assert (Uu : v3_dot ([| 0; 0; 1 |] : V3 R) [| 0; 0; 1 |] = 1) by (lazy [v3_dot ix0 ix1 ix2 ahd atl acons anil fst snd add mul R_Num]; ring).
  pose proof (c100_pow_rotation_partial (prec := 53) (emax := 1024) ltac:(lia) ltac:(lia) (2 * u53) (3 * u53) a (div (i64 1) (i64 2)) [| 0; 0; 1 |] (PI / 4) Uu ltac:(lra) C nanO_acos Fx
    ltac:(rewrite Vx, Rabs_pos_eq; lra) ltac:(rewrite Vs; lra)) as [G1 G2].
  rewrite Vx in G2. replace (/ 2 * (PI / 4)) with (PI / 8) in G2 by field. rewrite Vs in G2. split; [exact G1|eapply Rle_trans; [exact G2| ]]. lra.
Qed.
