(** * ProofsFloatSlerp: spherical interpolation of float quaternions (C101) *)

From Coq Require Import List Arith ZArith Reals Bool Lra Lia.
From Flocq Require Import Core Relative Sterbenz Mult_error IEEE754.BinarySingleNaN.
From Verif Require Import Base Scalar Vec Mat2 Mat3 Mat4 Mat5 Mat6 Slices MatLoops MatOps Quat Transf DualQuat RingDet Spec LoopFacts Entries InstZ InstR RFacts TrigFacts LUFacts QRFacts ProofsRing ProofsQuat ProofsRot ProofsRigid ProofsEuler ProofsSlerp InstF FloatFacts ProofsFloat ProofsFloat2 ProofsFloatErr ProofsFloatInv ProofsFloatNorm ProofsFloatRot ProofsFloatDrift ProofsFloatRigid ProofsFloatDQ ProofsFloatFromRot ProofsFloatRotH ProofsFloatQR ExpSeries ProofsExp ProofsFloatAngles ProofsFloatEuler ProofsFloatLog ProofsFloatScrew.
Local Open Scope R_scope.

(** the point at angle [x] on the great circle from [A] through [W] *)
Definition arc (A W : Quaternion R) (x : R) : Quaternion R :=
  q_new (cos x * qcomp 0 A + sin x * qcomp 0 W) [| cos x * qcomp 1 A + sin x * qcomp 1 W; cos x * qcomp 2 A + sin x * qcomp 2 W; cos x * qcomp 3 A + sin x * qcomp 3 W |].
(** [A] or its opposite, which is the same rotation *)
Definition either (sg : bool) (A : Quaternion R) : Quaternion R := if sg then A else q_neg A.

Lemma arc_rq A W x k : (k < 4)%nat -> rq (arc A W x) k = cos x * rq A k + sin x * rq W k.
Proof. intros Hk. destruct k as [ |[ |[ |[ |k]]]]; [reflexivity..|lia]. Qed.
Definition sgn (sg : bool) : R := if sg then 1 else -1.
Lemma either_rq sg A k : (k < 4)%nat -> rq (either sg A) k = sgn sg * rq A k.
Proof.
  intros Hk. destruct sg; unfold either, sgn; [ring| ]. destruct A as [a0 (a1&a2&a3&[]) f].
  destruct k as [ |[ |[ |[ |k]]]]; [change (- a0 = -1 * a0); ring|change (- a1 = -1 * a1); ring|change (- a2 = -1 * a2); ring|change (- a3 = -1 * a3); ring|lia].
Qed.
Lemma sgn_sq sg : sgn sg * sgn sg = 1. Proof. destruct sg; unfold sgn; ring. Qed.
Lemma sgn_abs sg : Rabs (sgn sg) = 1. Proof. destruct sg; unfold sgn; [apply Rabs_R1|rewrite Rabs_left by lra; lra]. Qed.

Definition dot4 (f g : nat -> R) : R := f 0%nat * g 0%nat + (f 1%nat * g 1%nat + f 2%nat * g 2%nat + f 3%nat * g 3%nat).
Lemma dot4_sumn f g : dot4 f g = sumn 4 (fun k => f k * g k).
Proof. unfold dot4. lazy [sumn add zero R_Num]. ring. Qed.
Lemma sq4 f : sq_sum 4 f = f 0%nat * f 0%nat + f 1%nat * f 1%nat + f 2%nat * f 2%nat + f 3%nat * f 3%nat.
Proof. unfold sq_sum. lazy [sumn add zero R_Num]. ring. Qed.
Lemma qinner_dot4 A B : qinner A B = dot4 (rq A) (rq B).
Proof. destruct A as [a0 (a1&a2&a3&[]) f], B as [b0 (b1&b2&b3&[]) g]. change (a0 * b0 + a1 * b1 + a2 * b2 + a3 * b3 = a0 * b0 + (a1 * b1 + a2 * b2 + a3 * b3)). ring. Qed.

Section F.
Context {prec emax : Z} {Hp : Prec_gt_0 prec} {He : Prec_lt_emax prec emax} {O : FOracle (binary_float prec emax)}.
Notation fl := (binary_float prec emax).
Notation uro := (uro (prec := prec)).
Notation eta := (eta (prec := prec) (emax := emax)).
Hypothesis Hp11 : (11 <= prec)%Z.
Hypothesis He4 : (4 * prec <= emax)%Z.

(** the computed inner product *)
Lemma dot_close (a b : Quaternion fl) : (forall k, (k < 4)%nat -> is_finite (qcomp k a) = true /\ is_finite (qcomp k b) = true) -> nrm 4 (qR a) <= 102 / 100 -> nrm 4 (qR b) <= 102 / 100 ->
  is_finite (q_dot a b) = true /\ Rabs (B2R (q_dot a b) - dot4 (qR a) (qR b)) <= 5 * uro.
Proof.
  intros F Na Nb. pose proof (uro_small Hp11) as U. pose proof (uro_pos (prec := prec)) as P. pose proof (eta_tiny Hp11 He4) as Et. assert (T0 : 0 <= eta) by apply eta_pos.
  assert (S : Rabs (qR a 0%nat * qR b 0%nat) + Rabs (qR a 1%nat * qR b 1%nat) + Rabs (qR a 2%nat * qR b 2%nat) + Rabs (qR a 3%nat * qR b 3%nat) <= 105 / 100).
  { pose proof (nrm_sq 4 (qR a)) as Qa. pose proof (nrm_sq 4 (qR b)) as Qb. rewrite sq4 in Qa, Qb. pose proof (nrm_pos 4 (qR a)) as Pa. pose proof (nrm_pos 4 (qR b)) as Pb.
    assert (nrm 4 (qR a) * nrm 4 (qR a) <= 102 / 100 * (102 / 100)) by (apply Rmult_le_compat; assumption). assert (nrm 4 (qR b) * nrm 4 (qR b) <= 102 / 100 * (102 / 100)) by (apply Rmult_le_compat; assumption).
    assert (G : forall x y, Rabs (x * y) <= / 2 * (x * x + y * y)) by (intros x y; apply Rabs_le; pose proof (Rle_0_sqr (x + y)) as A; pose proof (Rle_0_sqr (x - y)) as B; unfold Rsqr in A, B; lra).
    pose proof (G (qR a 0%nat) (qR b 0%nat)). pose proof (G (qR a 1%nat) (qR b 1%nat)). pose proof (G (qR a 2%nat) (qR b 2%nat)). pose proof (G (qR a 3%nat) (qR b 3%nat)). lra. }
  assert (M : forall k, (k < 4)%nat -> Rabs (qR a k * qR b k) <= 105 / 100 -> is_finite (mul (qcomp k a) (qcomp k b)) = true /\ Rabs (B2R (mul (qcomp k a) (qcomp k b)) - qR a k * qR b k) <= uro * Rabs (qR a k * qR b k) + eta).
  { intros k Hk L. destruct (F k Hk) as [Fa Fb]. apply (mul_ok Hp11 He4); [exact Fa|exact Fb| ]. change (Rabs (qR a k * qR b k) <= 100). lra. }
  pose proof (Rabs_pos (qR a 0%nat * qR b 0%nat)) as A0. pose proof (Rabs_pos (qR a 1%nat * qR b 1%nat)) as A1. pose proof (Rabs_pos (qR a 2%nat * qR b 2%nat)) as A2. pose proof (Rabs_pos (qR a 3%nat * qR b 3%nat)) as A3.
  destruct (M 0%nat ltac:(lia) ltac:(lra)) as [F0 V0]. destruct (M 1%nat ltac:(lia) ltac:(lra)) as [F1 V1]. destruct (M 2%nat ltac:(lia) ltac:(lra)) as [F2 V2]. destruct (M 3%nat ltac:(lia) ltac:(lra)) as [F3 V3']. clear M F.
  assert (Eq : q_dot a b = add (mul (qcomp 0 a) (qcomp 0 b)) (add (add (mul (qcomp 1 a) (qcomp 1 b)) (mul (qcomp 2 a) (qcomp 2 b))) (mul (qcomp 3 a) (qcomp 3 b)))).
  { destruct a as [a0 (a1&a2&a3&[]) f], b as [b0 (b1&b2&b3&[]) g]. reflexivity. }
  rewrite Eq. clear Eq. unfold dot4. set (p0 := mul (qcomp 0 a) (qcomp 0 b)) in *. set (p1 := mul (qcomp 1 a) (qcomp 1 b)) in *. set (p2 := mul (qcomp 2 a) (qcomp 2 b)) in *. set (p3 := mul (qcomp 3 a) (qcomp 3 b)) in *.
  set (x0 := qR a 0%nat * qR b 0%nat) in *. set (x1 := qR a 1%nat * qR b 1%nat) in *. set (x2 := qR a 2%nat * qR b 2%nat) in *. set (x3 := qR a 3%nat * qR b 3%nat) in *. clearbody p0 p1 p2 p3 x0 x1 x2 x3.
  assert (US : uro * Rabs x0 + uro * Rabs x1 + uro * Rabs x2 + uro * Rabs x3 <= 105 / 100 * uro) by (assert (uro * (Rabs x0 + Rabs x1 + Rabs x2 + Rabs x3) <= uro * (105 / 100)) by (apply Rmult_le_compat_l; lra); lra).
  assert (U0 : 0 <= uro * Rabs x0) by (apply Rmult_le_pos; lra). assert (U1 : 0 <= uro * Rabs x1) by (apply Rmult_le_pos; lra). assert (U2 : 0 <= uro * Rabs x2) by (apply Rmult_le_pos; lra). assert (U3 : 0 <= uro * Rabs x3) by (apply Rmult_le_pos; lra).
  pose proof (Rle_abs x0). pose proof (Rle_abs x1). pose proof (Rle_abs x2). pose proof (Rle_abs x3).
  pose proof (Rle_abs (- x0)) as N0. pose proof (Rle_abs (- x1)) as N1. pose proof (Rle_abs (- x2)) as N2. pose proof (Rle_abs (- x3)) as N3. rewrite Rabs_Ropp in N0, N1, N2, N3.
  set (y0 := uro * Rabs x0) in *. set (y1 := uro * Rabs x1) in *. set (y2 := uro * Rabs x2) in *. set (y3 := uro * Rabs x3) in *. set (z0 := Rabs x0) in *. set (z1 := Rabs x1) in *. set (z2 := Rabs x2) in *. set (z3 := Rabs x3) in *. clearbody y0 y1 y2 y3 z0 z1 z2 z3.
  apply Rabs_le_inv in V0, V1, V2, V3'.
  assert (L1 : Rabs (B2R p1 + B2R p2) <= 106 / 100) by (apply Rabs_le; lra).
  destruct (add_ok Hp11 He4 p1 p2 F1 F2 ltac:(lra)) as [Fs Vs]. set (s1 := add p1 p2) in *. clearbody s1. assert (W1 : uro * Rabs (B2R p1 + B2R p2) <= uro * (106 / 100)) by (apply Rmult_le_compat_l; lra).
  assert (Vs' : Rabs (B2R s1 - (B2R p1 + B2R p2)) <= 106 / 100 * uro) by lra. apply Rabs_le_inv in Vs'. clear Vs.
  assert (L2 : Rabs (B2R s1 + B2R p3) <= 107 / 100) by (apply Rabs_le; lra).
  destruct (add_ok Hp11 He4 s1 p3 Fs F3 ltac:(lra)) as [Ft Vt]. set (s2 := add s1 p3) in *. clearbody s2. assert (W2 : uro * Rabs (B2R s1 + B2R p3) <= uro * (107 / 100)) by (apply Rmult_le_compat_l; lra).
  assert (Vt' : Rabs (B2R s2 - (B2R s1 + B2R p3)) <= 107 / 100 * uro) by lra. apply Rabs_le_inv in Vt'. clear Vt.
  assert (L3 : Rabs (B2R p0 + B2R s2) <= 108 / 100) by (apply Rabs_le; lra).
  destruct (add_ok Hp11 He4 p0 s2 F0 Ft ltac:(lra)) as [Fr Vr]. assert (W3 : uro * Rabs (B2R p0 + B2R s2) <= uro * (108 / 100)) by (apply Rmult_le_compat_l; lra).
  split; [exact Fr| ]. assert (Vr' : Rabs (B2R (add p0 s2) - (B2R p0 + B2R s2)) <= 108 / 100 * uro) by lra. apply Rabs_le_inv in Vr'. apply Rabs_le. lra.
Qed.

(** the root of [1 - c^2] *)
Lemma root_sin (c : fl) f s : is_finite c = true -> -1 < B2R c < 1 -> cos f = B2R c -> 0 < s <= 1 -> 86 / 100 * s <= sin f -> 500 * uro <= s * s ->
  let r := fsqrt (sub one (mul c c)) in
  is_finite r = true /\ s * Rabs (B2R r - sin f) <= 38 / 10 * uro.
Proof.
  intros F L CF S SF U5 r. pose proof (uro_small Hp11) as U. pose proof (uro_pos (prec := prec)) as P. pose proof (eta_tiny Hp11 He4) as Et. assert (T0 : 0 <= eta) by apply eta_pos.
  assert (CC : 0 <= B2R c * B2R c <= 1) by nra.
  destruct (mul_ok Hp11 He4 c c F F ltac:(rewrite Rabs_pos_eq; lra)) as [Fm Vm]. rewrite (Rabs_pos_eq (B2R c * B2R c)) in Vm by lra.
  assert (Vm' : Rabs (B2R (mul c c) - B2R c * B2R c) <= 101 / 100 * uro) by (assert (uro * (B2R c * B2R c) <= uro * 1) by (apply Rmult_le_compat_l; lra); lra). apply Rabs_le_inv in Vm'.
  destruct one_val as [F1 V1].
  assert (L1 : Rabs (B2R (one : fl) - B2R (mul c c)) <= 101 / 100) by (rewrite V1; apply Rabs_le; lra).
  destruct (sub_ok Hp11 He4 one (mul c c) F1 Fm ltac:(lra)) as [Fw Vw]. set (w := sub one (mul c c)) in *.
  assert (Vw' : Rabs (B2R w - (1 - B2R (mul c c))) <= 101 / 100 * uro) by (rewrite V1 in *; assert (uro * Rabs (1 - B2R (mul c c)) <= uro * (101 / 100)) by (apply Rmult_le_compat_l; lra); lra). apply Rabs_le_inv in Vw'.
  assert (SC : sin f * sin f = 1 - B2R c * B2R c) by (rewrite <- CF; pose proof (sin2_cos2 f) as Q; unfold Rsqr in Q; lra).
  assert (Dw : - (202 / 100 * uro) <= B2R w - sin f * sin f <= 202 / 100 * uro) by lra.
  assert (SF2 : 73 / 100 * (s * s) <= sin f * sin f) by (replace (73 / 100 * (s * s)) with ((73 / 100 * s) * s) by ring; apply Rle_trans with (86 / 100 * s * (86 / 100 * s)); [nra|apply Rmult_le_compat; lra]).
  assert (W0 : 0 < B2R w) by lra.
  assert (Fr : is_finite r = true).
  { change (is_finite (Bsqrt mode_NE w) = true). destruct (Bsqrt_correct prec emax Hp He mode_NE w) as (_ & -> & _). clear - W0 Fw. destruct w as [sg|sg| |sg m ex Hx]; try discriminate Fw; [reflexivity| ]. destruct sg; [ |reflexivity]. exfalso.
    assert (X : B2R (B754_finite true m ex Hx) <= 0) by (apply F2R_le_0; cbn; lia). lra. }
  split; [exact Fr| ]. destruct (sqrt_round w) as (e & Le & Er). change (Bsqrt mode_NE w) with r in Er. rewrite Er.
  set (g := sqrt (B2R w)) in *. assert (g0 : 0 <= g) by apply sqrt_pos. assert (gg : g * g = B2R w) by (apply sqrt_sqrt; lra). clearbody g.
  pose proof (SIN_bound f) as [_ s1].
  assert (D1 : s * Rabs (g - sin f) <= 236 / 100 * uro).
  { assert (X : (g + sin f) * Rabs (g - sin f) <= 202 / 100 * uro).
    { rewrite <- (Rabs_pos_eq (g + sin f)) at 1 by lra. rewrite <- Rabs_mult. replace ((g + sin f) * (g - sin f)) with (g * g - sin f * sin f) by ring. rewrite gg. apply Rabs_le. lra. }
    assert (86 / 100 * s * Rabs (g - sin f) <= (g + sin f) * Rabs (g - sin f)) by (apply Rmult_le_compat_r; [apply Rabs_pos|lra]). lra. }
  replace (g * (1 + e) - sin f) with ((g - sin f) + g * e) by ring. eapply Rle_trans; [apply Rmult_le_compat_l; [lra|apply Rabs_triang]| ]. rewrite Rabs_mult, (Rabs_pos_eq g) by exact g0.
  assert (g1 : g <= 11 / 10) by nra. assert (g * Rabs e <= 11 / 10 * uro) by (apply Rmult_le_compat; try apply Rabs_pos; assumption).
  assert (s * (g * Rabs e) <= 1 * (11 / 10 * uro)) by (apply Rmult_le_compat; [lra|apply Rmult_le_pos; [lra|apply Rabs_pos]|lra|assumption]). lra.
Qed.

(** one of the two weights *)
Lemma weight_ok e (z y r : fl) x h s dh ds : acos_ok e -> is_finite z = true -> is_finite y = true -> is_finite r = true -> 0 <= x <= 1 -> 0 < h < 16 / 10 -> s = sin h -> 0 < s -> h < PI / 2 ->
  Rabs (B2R z - x) <= uro -> Rabs (B2R y - h) <= dh -> Rabs (B2R r - s) <= ds -> 0 <= dh <= 3 / 100 -> 33 * ds <= s -> dh + e + 4 * uro <= 3 / 100 * s ->
  let w := div (fsin (mul z y)) r in
  is_finite w = true /\ s * Rabs (B2R w - sin (x * h) / s) <= 1032 / 1000 * (dh + ds + e + 4 * uro) + 108 / 100 * uro /\ 0 <= sin (x * h) / s <= 1 /\ Rabs (B2R w) <= 11 / 10.
Proof.
  intros A Fz Fy Fr X H Es S Hh Dz Dy Dr D1 D2 D3 w. pose proof (uro_small Hp11) as U. pose proof (uro_pos (prec := prec)) as P. pose proof (eta_tiny Hp11 He4) as Et. assert (T0 : 0 <= eta) by apply eta_pos. pose proof (acos_pos e A) as e0.
  apply Rabs_le_inv in Dz, Dy.
  assert (Zy : Rabs (B2R z * B2R y - x * h) <= dh + 17 / 10 * uro).
  { replace (B2R z * B2R y - x * h) with (x * (B2R y - h) + (B2R z - x) * B2R y) by ring. eapply Rle_trans; [apply Rabs_triang| ]. rewrite !Rabs_mult.
    assert (Rabs x * Rabs (B2R y - h) <= 1 * dh) by (apply Rmult_le_compat; try apply Rabs_pos; [rewrite Rabs_pos_eq; lra|apply Rabs_le; lra]).
    assert (Rabs (B2R z - x) * Rabs (B2R y) <= uro * (17 / 10)) by (apply Rmult_le_compat; try apply Rabs_pos; [apply Rabs_le; lra|apply Rabs_le; lra]). lra. }
  assert (XH : 0 <= x * h <= h) by nra. apply Rabs_le_inv in Zy.
  assert (Bz : Rabs (B2R z * B2R y) <= 17 / 10) by (apply Rabs_le; lra).
  destruct (mul_ok Hp11 He4 z y Fz Fy ltac:(lra)) as [Fm Vm]. assert (uro * Rabs (B2R z * B2R y) <= uro * (17 / 10)) by (apply Rmult_le_compat_l; lra).
  assert (Vm' : Rabs (B2R (mul z y) - B2R z * B2R y) <= 18 / 10 * uro) by lra. apply Rabs_le_inv in Vm'. clear Vm.
  assert (Dm : Rabs (B2R (mul z y) - x * h) <= dh + 35 / 10 * uro) by (apply Rabs_le; lra).
  destruct (proj1 A (mul z y) Fm ltac:(apply Rabs_le; lra)) as [[Fn Vn] _]. set (n := fsin (mul z y)) in *.
  assert (Dn : Rabs (B2R n - sin (x * h)) <= dh + e + 35 / 10 * uro).
  { replace (B2R n - sin (x * h)) with ((B2R n - sin (B2R (mul z y))) + (sin (B2R (mul z y)) - sin (x * h))) by ring. eapply Rle_trans; [apply Rabs_triang| ]. pose proof (sin_lip (B2R (mul z y)) (x * h)). lra. }
  assert (ds0 : 0 <= ds) by (eapply Rle_trans; [apply Rabs_pos|exact Dr]). assert (R97 : 969 / 1000 * s <= B2R r) by (apply Rabs_le_inv in Dr; lra). assert (Rp : 0 < B2R r) by lra.
  assert (Q : 0 <= sin (x * h) <= s).
  { split; [apply sin_ge_0; lra| ]. rewrite Es. apply sin_incr_1; lra. }
  set (y0 := sin (x * h) / s) in *. assert (Yv : y0 * s = sin (x * h)) by (unfold y0; field; lra).
  assert (Y1 : 0 <= y0 <= 1).
  { split; [apply (Rmult_le_reg_r s); lra|apply (Rmult_le_reg_r s); lra]. }
  assert (I : s * / B2R r <= 1032 / 1000) by (apply (Rmult_le_reg_r (B2R r)); [lra| ]; rewrite Rmult_assoc, Rinv_l by lra; lra).
  assert (Dq : s * Rabs (B2R n / B2R r - y0) <= 1032 / 1000 * (dh + ds + e + 35 / 10 * uro)).
  { replace (B2R n / B2R r - y0) with (/ B2R r * ((B2R n - sin (x * h)) + y0 * (s - B2R r))) by (rewrite <- Yv; field; lra).
    rewrite Rabs_mult, (Rabs_pos_eq (/ B2R r)) by (left; apply Rinv_0_lt_compat, Rp). rewrite <- Rmult_assoc. apply Rmult_le_compat; [apply Rmult_le_pos; [lra|left; apply Rinv_0_lt_compat, Rp]|apply Rabs_pos|exact I| ].
    eapply Rle_trans; [apply Rabs_triang| ]. rewrite (Rabs_mult y0). assert (Rabs y0 * Rabs (s - B2R r) <= 1 * ds) by (apply Rmult_le_compat; try apply Rabs_pos; [rewrite Rabs_pos_eq; lra|rewrite Rabs_minus_sym; exact Dr]). lra. }
  assert (Dq' : Rabs (B2R n / B2R r - y0) <= 7 / 100) by (apply (Rmult_le_reg_l s); [exact S| ]; lra). apply Rabs_le_inv in Dq'.
  assert (Bq : Rabs (B2R n / B2R r) <= 107 / 100) by (apply Rabs_le; lra).
  destruct (div_error n r Fn ltac:(lra) ltac:(lra)) as (Fw & g & hb & Lg & Lh & Vw). change (Bdiv mode_NE n r) with w in Fw, Vw.
  assert (Dw : Rabs (B2R w - B2R n / B2R r) <= 108 / 100 * uro).
  { rewrite Vw. replace (B2R n / B2R r * (1 + g) + hb - B2R n / B2R r) with (B2R n / B2R r * g + hb) by ring. eapply Rle_trans; [apply Rabs_triang| ]. rewrite Rabs_mult.
    assert (Rabs (B2R n / B2R r) * Rabs g <= 107 / 100 * uro) by (apply Rmult_le_compat; try apply Rabs_pos; assumption). lra. }
  split; [exact Fw|split; [ |split; [exact Y1| ]]].
  - replace (B2R w - y0) with ((B2R w - B2R n / B2R r) + (B2R n / B2R r - y0)) by ring. eapply Rle_trans; [apply Rmult_le_compat_l; [lra|apply Rabs_triang]| ].
    assert (s1 : s <= 1) by (rewrite Es; apply SIN_bound). assert (s * Rabs (B2R w - B2R n / B2R r) <= 1 * (108 / 100 * uro)) by (apply Rmult_le_compat; [lra|apply Rabs_pos|lra|exact Dw]). lra.
  - apply Rabs_le_inv in Dw, Bq. apply Rabs_le. lra.
Qed.

(** the weighted sum of two quaternions *)
Lemma comb_ok (sg : bool) (p1 p2 : fl) x1 x2 : is_finite p1 = true -> is_finite p2 = true -> Rabs x1 <= 113 / 100 -> Rabs x2 <= 113 / 100 ->
  Rabs (B2R p1 - x1) <= 114 / 100 * uro -> Rabs (B2R p2 - x2) <= 114 / 100 * uro ->
  let r := if sg then add p1 p2 else sub p1 p2 in
  is_finite r = true /\ Rabs (B2R r - (x1 + sgn sg * x2)) <= 46 / 10 * uro.
Proof.
  intros F1 F2 B1 B2 D1 D2 r. pose proof (uro_small Hp11) as U. pose proof (uro_pos (prec := prec)) as P. apply Rabs_le_inv in B1, B2, D1, D2.
  destruct sg; unfold sgn, r.
  - assert (L : Rabs (B2R p1 + B2R p2) <= 228 / 100) by (apply Rabs_le; lra). destruct (add_ok Hp11 He4 p1 p2 F1 F2 ltac:(lra)) as [Fr Vr]. split; [exact Fr| ].
    assert (uro * Rabs (B2R p1 + B2R p2) <= uro * (228 / 100)) by (apply Rmult_le_compat_l; lra). assert (V : Rabs (B2R (add p1 p2) - (B2R p1 + B2R p2)) <= 228 / 100 * uro) by lra. apply Rabs_le_inv in V. apply Rabs_le. lra.
  - assert (L : Rabs (B2R p1 - B2R p2) <= 228 / 100) by (apply Rabs_le; lra). destruct (sub_ok Hp11 He4 p1 p2 F1 F2 ltac:(lra)) as [Fr Vr]. split; [exact Fr| ].
    assert (uro * Rabs (B2R p1 - B2R p2) <= uro * (228 / 100)) by (apply Rmult_le_compat_l; lra). assert (V : Rabs (B2R (sub p1 p2) - (B2R p1 - B2R p2)) <= 228 / 100 * uro) by lra. apply Rabs_le_inv in V. apply Rabs_le. lra.
Qed.
Lemma mul_comm_fl (x y : fl) : mul x y = mul y x.
Proof. apply Bmult_comm. Qed.

Lemma slerp_shape (a b : Quaternion fl) t (sg : bool) : leb one (abs (q_dot a b)) = false -> ltb (q_dot a b) zero = negb sg ->
  let c := if sg then q_dot a b else neg (q_dot a b) in
  let r := fsqrt (sub one (mul c c)) in
  ltb (abs r) lit_1em3 = false ->
  forall k, (k < 4)%nat -> qcomp k (q_slerp a b t) = (if sg then add else sub) (mul (div (fsin (mul (sub one t) (facos c))) r) (qcomp k a)) (mul (div (fsin (mul t (facos c))) r) (qcomp k b)).
Proof.
  intros H1 H2 c r H3 k Hk. unfold q_slerp. rewrite H1, H2. unfold r, c in *. clear r c.
  destruct sg; cbv iota beta zeta in H3 |- *; cbn [negb]; cbv iota beta zeta; rewrite H3; clear H1 H2 H3; destruct a as [a0 (a1&a2&a3&[]) f], b as [b0 (b1&b2&b3&[]) g];
  (destruct k as [ |[ |[ |[ |k]]]]; [reflexivity|rewrite (mul_comm_fl (div _ _) (qcomp 1 _)), (mul_comm_fl (div _ _) (qcomp 1 (mkQ b0 _ _))); reflexivity|rewrite (mul_comm_fl (div _ _) (qcomp 2 _)), (mul_comm_fl (div _ _) (qcomp 2 (mkQ b0 _ _))); reflexivity|rewrite (mul_comm_fl (div _ _) (qcomp 3 _)), (mul_comm_fl (div _ _) (qcomp 3 (mkQ b0 _ _))); reflexivity|lia]).
Qed.

Lemma c101_slerp_partial : forall e E (a b : Quaternion fl) (t : fl) (A W : Quaternion R) (sg : bool) h, unit_quat A -> unit_quat W -> qinner A W = 0 -> 0 < h < PI / 2 ->
  close4 E a A -> close4 E b (either sg (arc A W h)) -> acos_ok e -> is_finite (lit_1em3 : fl) = true -> 2 * B2R (lit_1em3 : fl) <= sin h -> is_finite t = true -> 0 <= B2R t <= 1 ->
  100 * (E + e + 5 * uro) <= sin h * sin h -> 3 * E + 6 * uro <= cos h ->
  close4 ((12 * E + 5 * e + 60 * uro) / (sin h * sin h)) (q_slerp a b t) (arc A W (B2R t * h)).
Proof.
  intros e E a b t A W sg h UA UW AW H [Fa Ca] [Fb Cb] AO Fl Ll Ft Lt L Lc. pose proof (uro_small Hp11) as U. pose proof (uro_pos (prec := prec)) as P. pose proof (eta_tiny Hp11 He4) as Et. assert (T0 : 0 <= eta) by apply eta_pos.
  rewrite close4_nrm in Ca, Cb. assert (E0 : 0 <= E) by (eapply Rle_trans; [apply nrm_pos|exact Ca]). pose proof (acos_pos e AO) as e0. pose proof pi_32 as P32. pose proof PI_RGT_0 as P0.
  pose proof (sin_gt_0 h ltac:(lra) ltac:(lra)) as S0. pose proof (SIN_bound h) as [_ S1]. pose proof (sin2_cos2 h) as SC. unfold Rsqr in SC.
  pose proof (unit_sq A UA) as QA. pose proof (unit_sq W UW) as QW. rewrite qinner_dot4 in AW.
  set (B := arc A W h) in *. set (s := sin h) in *. set (co := cos h) in *. set (G := sgn sg) in *. assert (GG : G * G = 1) by apply sgn_sq. assert (Ga : Rabs G = 1) by apply sgn_abs.
  assert (SS : 0 < s * s <= 1) by nra.
  assert (E1 : E <= / 100) by lra.
  assert (NA : nrm 4 (rq A) = 1) by (unfold nrm; rewrite QA; apply sqrt_1).
  assert (RB : forall k, (k < 4)%nat -> rq B k = co * rq A k + s * rq W k) by (intros k Hk; apply arc_rq, Hk).
  assert (NB : nrm 4 (rq B) = 1).
  { unfold nrm. rewrite <- sqrt_1. f_equal. rewrite sq4 in QA, QW |- *. unfold dot4 in AW. rewrite !RB by lia. 
    match goal with |- ?l = 1 => replace l with (co * co * (rq A 0%nat * rq A 0%nat + rq A 1%nat * rq A 1%nat + rq A 2%nat * rq A 2%nat + rq A 3%nat * rq A 3%nat) + s * s * (rq W 0%nat * rq W 0%nat + rq W 1%nat * rq W 1%nat + rq W 2%nat * rq W 2%nat + rq W 3%nat * rq W 3%nat) + 2 * (co * s) * (rq A 0%nat * rq W 0%nat + (rq A 1%nat * rq W 1%nat + rq A 2%nat * rq W 2%nat + rq A 3%nat * rq W 3%nat))) by ring end.
    rewrite QA, QW, AW. lra. }
  assert (DAB : dot4 (rq A) (rq B) = co).
  { rewrite sq4 in QA. unfold dot4 in *. rewrite !RB by lia.
    match goal with |- ?l = co => replace l with (co * (rq A 0%nat * rq A 0%nat + rq A 1%nat * rq A 1%nat + rq A 2%nat * rq A 2%nat + rq A 3%nat * rq A 3%nat) + s * (rq A 0%nat * rq W 0%nat + (rq A 1%nat * rq W 1%nat + rq A 2%nat * rq W 2%nat + rq A 3%nat * rq W 3%nat))) by ring end.
    rewrite QA, AW. ring. }
  assert (Cb' : nrm 4 (fun k => G * qR b k - rq B k) <= E).
  { eapply Rle_trans; [ |exact Cb]. rewrite (nrm_ext 4 _ (fun k => G * (qR b k - rq (either sg B) k))) by (intros k Hk; rewrite (either_rq sg B k Hk); fold G; replace (G * (qR b k - G * rq B k)) with (G * qR b k - G * G * rq B k) by ring; rewrite GG; ring).
    rewrite nrm_scal, Ga. lra. }
  assert (Na : nrm 4 (qR a) <= 1 + E) by (pose proof (nrm_diff 4 (qR a) (rq A)) as T; apply Rabs_le_inv in T; lra).
  assert (Nb : nrm 4 (fun k => G * qR b k) <= 1 + E) by (pose proof (nrm_diff 4 (fun k => G * qR b k) (rq B)) as T; cbv beta in T; apply Rabs_le_inv in T; lra).
  rewrite nrm_scal, Ga, Rmult_1_l in Nb.
  (* the inner product *)
  destruct (dot_close a b ltac:(intros k Hk; split; [apply Fa|apply Fb]; exact Hk) ltac:(lra) ltac:(lra)) as [Fd Vd]. set (d := q_dot a b) in *.
  set (D := 21 / 10 * E + 5 * uro).
  assert (Dd : Rabs (G * B2R d - co) <= D).
  { replace (G * B2R d - co) with (G * (B2R d - dot4 (qR a) (qR b)) + (G * dot4 (qR a) (qR b) - co)) by ring. eapply Rle_trans; [apply Rabs_triang| ]. rewrite (Rabs_mult G), Ga, Rmult_1_l.
    assert (X : Rabs (G * dot4 (qR a) (qR b) - co) <= E * (1 + E) + E).
    { rewrite <- DAB. replace (G * dot4 (qR a) (qR b) - dot4 (rq A) (rq B)) with (dot4 (fun k => qR a k - rq A k) (fun k => G * qR b k) + dot4 (rq A) (fun k => G * qR b k - rq B k)) by (unfold dot4; ring).
      eapply Rle_trans; [apply Rabs_triang| ]. rewrite !dot4_sumn. apply Rplus_le_compat.
      - eapply Rle_trans; [apply nrm_cs| ]. apply Rmult_le_compat; try apply nrm_pos; [exact Ca|rewrite nrm_scal, Ga; lra].
      - eapply Rle_trans; [apply nrm_cs| ]. rewrite NA, Rmult_1_l. exact Cb'. }
    assert (E * E <= / 100 * E) by (apply Rmult_le_compat_r; lra). unfold D. lra. }
  assert (HPI : 0 < h < PI) by lra.
  destruct (acos_near h (G * B2R d) D HPI Dd ltac:(fold s; unfold D; lra)) as (X1 & Fr & CA & SA & AT & AS). fold s in SA, AT, AS. set (f := acos (G * B2R d)) in *.
  set (c := if sg then d else neg d).
  assert (Vc : B2R c = G * B2R d) by (unfold c, G, sgn; destruct sg; [ring|change (neg d) with (Bopp d); rewrite B2R_Bopp; ring]).
  assert (Fc : is_finite c = true) by (unfold c; destruct sg; [exact Fd|change (neg d) with (Bopp d); rewrite is_finite_Bopp; exact Fd]).
  assert (dc : D < co) by (unfold D; lra). apply Rabs_le_inv in Dd.
  assert (Ad : Rabs (B2R d) = G * B2R d) by (assert (0 < G * B2R d) by lra; rewrite <- (Rabs_pos_eq (G * B2R d)) by lra; rewrite Rabs_mult, Ga; ring).
  destruct (one_val (prec := prec) (emax := emax)) as [F1 V1].
  assert (K1 : leb one (abs d) = false) by (apply leb_false; [exact F1|change (abs d) with (Babs d); rewrite is_finite_Babs; exact Fd|change (abs d) with (Babs d); rewrite B2R_Babs, Ad, V1; lra]).
  assert (K2 : ltb d zero = negb sg).
  { change (ltb d zero) with (Bltb d zero). rewrite Bltb_correct by (exact Fd || reflexivity). change (B2R (zero : fl)) with 0. unfold G, sgn in *. destruct sg; [apply Rlt_bool_false; lra|apply Rlt_bool_true; lra]. }
  (* the half angle and its sine *)
  destruct (proj2 AO c Fc ltac:(rewrite Vc; apply Rabs_le; lra)) as [Fh Vh]. rewrite Vc in Vh. fold f in Vh. set (y := facos c) in *.
  destruct (root_sin c f s Fc ltac:(rewrite Vc; exact X1) ltac:(rewrite Vc; exact CA) ltac:(lra) SA ltac:(lra)) as [Frt Vrt]. cbv zeta in Frt, Vrt. set (r := fsqrt (sub one (mul c c))) in *.
  assert (Es' : s * (E / s) = E) by (field; lra). set (qE := E / s) in *. assert (qE0 : 0 <= qE) by (apply (Rmult_le_reg_l s); lra). clearbody qE.
  assert (us' : s * (uro / s) = uro) by (field; lra). set (qu := uro / s) in *. assert (qu0 : 0 <= qu) by (apply (Rmult_le_reg_l s); lra). clearbody qu.
  assert (Q100 : 100 * qE + 100 * e + 500 * qu <= s).
  { apply (Rmult_le_reg_l s); [exact S0| ]. assert (s * e <= 1 * e) by (apply Rmult_le_compat_r; lra). lra. }
  assert (uq : uro <= qu) by (assert (s * qu <= 1 * qu) by (apply Rmult_le_compat_r; lra); lra).
  assert (DA : Rabs (f - h) <= 246 / 100 * qE + 585 / 100 * qu) by (apply (Rmult_le_reg_l s); [exact S0| ]; unfold D in AT; lra).
  assert (DB : Rabs (B2R r - s) <= 2268 / 1000 * qE + 92 / 10 * qu).
  { apply (Rmult_le_reg_l s); [exact S0| ]. apply Rle_trans with (s * (Rabs (B2R r - sin f) + Rabs (sin f - s))); [ |unfold D in AS; lra].
    apply Rmult_le_compat_l; [lra| ]. replace (B2R r - s) with ((B2R r - sin f) + (sin f - s)) by ring. apply Rabs_triang. }
  assert (DY : Rabs (B2R y - h) <= 246 / 100 * qE + 585 / 100 * qu + e).
  { replace (B2R y - h) with ((B2R y - f) + (f - h)) by ring. eapply Rle_trans; [apply Rabs_triang| ]. lra. }
  assert (K3 : ltb (abs r) lit_1em3 = false).
  { change (ltb (abs r) lit_1em3) with (Bltb (Babs r) lit_1em3). rewrite Bltb_correct by (rewrite ?is_finite_Babs; assumption). rewrite B2R_Babs. apply Rlt_bool_false. apply Rabs_le_inv in DB. rewrite Rabs_pos_eq; lra. }
  pose proof (slerp_shape a b t sg K1 K2) as V. cbv zeta in V. fold d in V. change (if sg then d else neg d) with c in V. fold y r in V. specialize (V K3).
  (* the weights *)
  destruct (sub_ok Hp11 He4 one t F1 Ft ltac:(rewrite V1; apply Rabs_le; lra)) as [Fz Vz]. rewrite V1 in Vz. set (z := sub one t) in *.
  assert (Vz' : Rabs (B2R z - (1 - B2R t)) <= uro) by (assert (uro * Rabs (1 - B2R t) <= uro * 1) by (apply Rmult_le_compat_l; [lra|apply Rabs_le; lra]); lra).
  assert (C1 : 0 <= 246 / 100 * qE + 585 / 100 * qu + e <= 3 / 100) by lra. assert (C2 : 33 * (2268 / 1000 * qE + 92 / 10 * qu) <= s) by lra. assert (C3 : 246 / 100 * qE + 585 / 100 * qu + e + e + 4 * uro <= 3 / 100 * s) by lra.
  destruct (weight_ok e z y r (1 - B2R t) h s _ _ AO Fz Fh Frt ltac:(lra) ltac:(lra) eq_refl S0 ltac:(lra) Vz' DY DB C1 C2 C3) as (Fw1 & Ew1 & Y1 & B1). cbv zeta in Fw1, Ew1, B1.
  destruct (weight_ok e t y r (B2R t) h s _ _ AO Ft Fh Frt ltac:(lra) ltac:(lra) eq_refl S0 ltac:(lra) ltac:(rewrite Rminus_diag_eq, Rabs_R0 by reflexivity; lra) DY DB C1 C2 C3) as (Fw2 & Ew2 & Y2 & B2). cbv zeta in Fw2, Ew2, B2.
  set (w1 := div (fsin (mul z y)) r) in *. set (w2 := div (fsin (mul t y)) r) in *. set (y1 := sin ((1 - B2R t) * h) / s) in *. set (y2 := sin (B2R t * h) / s) in *.
  set (dx := 1032 / 1000 * (246 / 100 * qE + 585 / 100 * qu + e + (2268 / 1000 * qE + 92 / 10 * qu) + e + 4 * uro) + 108 / 100 * uro) in *.
  assert (PW : forall (w : fl) (q : Quaternion fl) k, is_finite w = true -> Rabs (B2R w) <= 11 / 10 -> (forall k, (k < 4)%nat -> is_finite (qcomp k q) = true) -> nrm 4 (qR q) <= 1 + E -> (k < 4)%nat ->
    is_finite (mul w (qcomp k q)) = true /\ Rabs (B2R w * qR q k) <= 113 / 100 /\ Rabs (B2R (mul w (qcomp k q)) - B2R w * qR q k) <= 114 / 100 * uro).
  { intros w q k Fw Bw Fq Nq Hk. pose proof (comp_nrm 4 (qR q) k Hk) as T. assert (Bm : Rabs (B2R w * qR q k) <= 113 / 100) by (rewrite Rabs_mult; apply Rle_trans with (11 / 10 * (102 / 100)); [apply Rmult_le_compat; try apply Rabs_pos; lra|lra]).
    destruct (mul_ok Hp11 He4 w (qcomp k q) Fw (Fq k Hk) ltac:(change (Rabs (B2R w * qR q k) <= 100); lra)) as [Fm Vm]. split; [exact Fm|split; [exact Bm| ]]. change (B2R (qcomp k q)) with (qR q k) in Vm.
    assert (uro * Rabs (B2R w * qR q k) <= uro * (113 / 100)) by (apply Rmult_le_compat_l; lra). lra. }
  assert (RES : forall k, (k < 4)%nat -> is_finite (qcomp k (q_slerp a b t)) = true /\ Rabs (B2R (qcomp k (q_slerp a b t)) - (B2R w1 * qR a k + G * (B2R w2 * qR b k))) <= 46 / 10 * uro).
  { intros k Hk. rewrite (V k Hk). destruct (PW w1 a k Fw1 B1 Fa Na Hk) as (Q1 & Q2 & Q3). destruct (PW w2 b k Fw2 B2 Fb Nb Hk) as (R1 & R2 & R3).
    pose proof (comb_ok sg _ _ _ _ Q1 R1 Q2 R2 Q3 R3) as Z. cbv zeta in Z. fold G in Z. destruct sg; exact Z. }
  split; [intros k Hk; apply (RES k Hk)| ]. rewrite close4_nrm.
  assert (TG : forall k, (k < 4)%nat -> rq (arc A W (B2R t * h)) k = y1 * rq A k + y2 * rq B k).
  { intros k Hk. rewrite (RB k Hk), arc_rq by exact Hk. unfold y1, y2. replace ((1 - B2R t) * h) with (h - B2R t * h) by ring. rewrite sin_minus. fold s co. field. lra. }
  rewrite (nrm_ext 4 _ (fun k => (qR (q_slerp a b t) k - (B2R w1 * qR a k + G * (B2R w2 * qR b k))) + ((B2R w1 - y1) * qR a k + y1 * (qR a k - rq A k) + ((B2R w2 - y2) * (G * qR b k) + y2 * (G * qR b k - rq B k))))) by (intros k Hk; rewrite (TG k Hk); ring).
  eapply Rle_trans; [apply nrm_plus| ]. eapply Rle_trans; [apply Rplus_le_compat_l; eapply Rle_trans; [apply nrm_plus|apply Rplus_le_compat; apply nrm_plus]| ]. rewrite !(nrm_scal 4 _ _).
  assert (N1 : nrm 4 (fun k => qR (q_slerp a b t) k - (B2R w1 * qR a k + G * (B2R w2 * qR b k))) <= 2 * (46 / 10 * uro)).
  { eapply Rle_trans; [apply (nrm_bound 4 _ (46 / 10 * uro)); [lra|intros k Hk; apply (RES k Hk)]| ]. replace (INR 4) with (2 * 2) by (cbn; ring). rewrite sqrt_square by lra. lra. }
  assert (J : forall w y0, s * Rabs (B2R w - y0) <= dx -> s * s * Rabs (B2R (w : fl) - y0) <= 49 / 10 * E + 21 / 10 * e + 21 * uro).
  { intros w y0 Hw. replace (s * s * Rabs (B2R w - y0)) with (s * (s * Rabs (B2R w - y0))) by ring. eapply Rle_trans; [apply Rmult_le_compat_l; [lra|exact Hw]| ].
    assert (s * e <= 1 * e) by (apply Rmult_le_compat_r; lra). assert (s * uro <= 1 * uro) by (apply Rmult_le_compat_r; lra). unfold dx. lra. }
  pose proof (J w1 y1 Ew1) as J1. pose proof (J w2 y2 Ew2) as J2. clear J.
  assert (I1 : s * s * (Rabs (B2R w1 - y1) * nrm 4 (qR a)) <= (49 / 10 * E + 21 / 10 * e + 21 * uro) * (101 / 100)) by (rewrite <- Rmult_assoc; apply Rmult_le_compat; [apply Rmult_le_pos; [lra|apply Rabs_pos]|apply nrm_pos|exact J1|lra]).
  assert (I2 : s * s * (Rabs (B2R w2 - y2) * (Rabs G * nrm 4 (qR b))) <= (49 / 10 * E + 21 / 10 * e + 21 * uro) * (101 / 100)) by (rewrite <- Rmult_assoc; rewrite Ga, Rmult_1_l; apply Rmult_le_compat; [apply Rmult_le_pos; [lra|apply Rabs_pos]|apply nrm_pos|exact J2|lra]).
  assert (I3 : Rabs y1 * nrm 4 (fun k => qR a k - rq A k) <= 1 * E) by (apply Rmult_le_compat; [apply Rabs_pos|apply nrm_pos|rewrite Rabs_pos_eq; lra|exact Ca]).
  assert (I4 : Rabs y2 * nrm 4 (fun k => G * qR b k - rq B k) <= 1 * E) by (apply Rmult_le_compat; [apply Rabs_pos|apply nrm_pos|rewrite Rabs_pos_eq; lra|exact Cb']).
  apply (Rmult_le_reg_l (s * s)); [lra| ]. replace (s * s * ((12 * E + 5 * e + 60 * uro) / (s * s))) with (12 * E + 5 * e + 60 * uro) by (field; lra).
  set (n1 := nrm 4 (fun k => qR (q_slerp a b t) k - (B2R w1 * qR a k + G * (B2R w2 * qR b k)))) in *. set (m1 := Rabs (B2R w1 - y1) * nrm 4 (qR a)) in *. set (m2 := Rabs (B2R w2 - y2) * (Rabs G * nrm 4 (qR b))) in *.
  set (m3 := Rabs y1 * nrm 4 (fun k => qR a k - rq A k)) in *. set (m4 := Rabs y2 * nrm 4 (fun k => G * qR b k - rq B k)) in *.
  assert (s * s * (n1 + (m3 + m4)) <= 1 * (2 * (46 / 10 * uro) + 2 * E)).
  { apply Rmult_le_compat; [lra| |lra|lra]. unfold n1, m3, m4. repeat apply Rplus_le_le_0_compat; try apply nrm_pos; apply Rmult_le_pos; try apply nrm_pos; apply Rabs_pos. }
  replace (s * s * (n1 + (m1 + m3 + (m2 + m4)))) with (s * s * (n1 + (m3 + m4)) + s * s * m1 + s * s * m2) by ring. lra.
Qed.
End F.

#[local] Instance prec53 : Prec_gt_0 53 := eq_refl.
#[local] Instance emax1024 : Prec_lt_emax 53 1024 := eq_refl.
#[local] Notation f64 := (binary_float 53 1024).
#[local] Notation u53 := (FloatFacts.uro (prec := 53)).

Lemma u53_val : u53 = / 9007199254740992.
Proof. unfold FloatFacts.uro. change (bpow radix2 (1 - 53)) with (/ 4503599627370496). lra. Qed.

(** a float quaternion with at most two components that differ from zero, near a unit quaternion of the same shape *)
Lemma close_pair (a : Quaternion f64) (A : Quaternion R) d : 0 <= d -> (forall k, (k < 4)%nat -> is_finite (qcomp k a) = true /\ Rabs (B2R (qcomp k a) - qcomp k A) <= d) -> close4 (2 * d) a A.
Proof.
  intros D H. split; [intros k Hk; apply (H k Hk)| ]. rewrite close4_nrm. eapply Rle_trans; [apply (nrm_bound 4 _ d D); intros k Hk; apply (H k Hk)| ].
  replace (INR 4) with (2 * 2) by (cbn; ring). rewrite sqrt_square by lra. lra.
Qed.

(** *** quaternions less than 10^-8 apart: the first is returned whatever the parameter *)
Definition h27 : f64 := div (i64 1) (i64 134217728).
Definition id64 : Quaternion f64 := q_new (i64 1) [| i64 0; i64 0; i64 0 |].
Definition far4 (d : R) (a : Quaternion f64) (A : Quaternion R) : Prop := exists k, (k < 4)%nat /\ d < Rabs (B2R (qcomp k a) - qcomp k A).

Lemma c101_same_refuted : exists (a b : Quaternion f64) (A B : Quaternion R), unit_quat A /\ unit_quat B /\ close4 u53 a A /\ close4 u53 b B /\
  forall O : FOracle f64, q_slerp a b (i64 1) = a /\ forall sg, far4 (10 ^ 7 * u53) (q_slerp a b (i64 1)) (either sg B).
Proof.
  set (b := q_new (i64 1) [| h27; i64 0; i64 0 |]). set (w := 72057594037927935 / 72057594037927937). set (x := 536870912 / 72057594037927937).
  set (A := q_new 1 [| 0; 0; 0 |]). set (B := q_new w [| x; 0; 0 |]). exists id64, b, A, B.
  destruct (fofZ_int (prec := 53) (emax := 1024) 0 ltac:(cbn; lia)) as [F0 V0]. destruct (fofZ_int (prec := 53) (emax := 1024) 1 ltac:(cbn; lia)) as [F1 V1].
  assert (X : B2SF h27 = SpecFloat.S754_finite false 4503599627370496 (-79)) by (vm_compute; reflexivity). assert (Fh : is_finite h27 = true) by (vm_compute; reflexivity).
  assert (Vh : B2R h27 = / 134217728) by (rewrite (B2R_of_SF _ _ _ _ X); change (bpow radix2 (-79)) with (/ 604462909807314587353088); lra).
  pose proof u53_val as U.
  split; [change (1 * 1 + 0 * 0 + 0 * 0 + 0 * 0 = 1); ring|split; [change (w * w + x * x + 0 * 0 + 0 * 0 = 1); unfold w, x; lra|split; [ |split]]].
  - replace u53 with (2 * (u53 / 2)) by field. apply close_pair; [rewrite U; lra| ]. intros k Hk. destruct k as [ |[ |[ |[ |k]]]]; [ | | | |lia]; (split; [first [exact F1|exact F0]| ]).
    + change (Rabs (B2R (fofZ 1 : f64) - 1) <= u53 / 2). rewrite V1, U. apply Rabs_le; lra.
    + change (Rabs (B2R (fofZ 0 : f64) - 0) <= u53 / 2). rewrite V0, U. apply Rabs_le; lra.
    + change (Rabs (B2R (fofZ 0 : f64) - 0) <= u53 / 2). rewrite V0, U. apply Rabs_le; lra.
    + change (Rabs (B2R (fofZ 0 : f64) - 0) <= u53 / 2). rewrite V0, U. apply Rabs_le; lra.
  - replace u53 with (2 * (u53 / 2)) by field. apply close_pair; [rewrite U; lra| ]. intros k Hk. destruct k as [ |[ |[ |[ |k]]]]; [ | | | |lia]; (split; [first [exact F1|exact F0|exact Fh]| ]).
    + change (Rabs (B2R (fofZ 1 : f64) - w) <= u53 / 2). rewrite V1, U. unfold w. apply Rabs_le; lra.
    + change (Rabs (B2R h27 - x) <= u53 / 2). rewrite Vh, U. unfold x. apply Rabs_le; lra.
    + change (Rabs (B2R (fofZ 0 : f64) - 0) <= u53 / 2). rewrite V0, U. apply Rabs_le; lra.
    + change (Rabs (B2R (fofZ 0 : f64) - 0) <= u53 / 2). rewrite V0, U. apply Rabs_le; lra.
  - intros O. assert (E : q_slerp id64 b (i64 1) = id64) by (unfold q_slerp; replace (leb one (abs (q_dot id64 b))) with true by (vm_compute; reflexivity); reflexivity).
    split; [exact E| ]. intros sg. exists 1%nat. split; [lia| ]. rewrite E. change (qcomp 1 id64) with (fofZ 0 : f64). rewrite V0. change (qcomp 1 (either sg B)) with (rq (either sg B) 1%nat). rewrite (either_rq sg B 1) by lia. change (rq B 1%nat) with x.
    rewrite Rminus_0_l, Rabs_Ropp, Rabs_mult, sgn_abs, Rmult_1_l, Rabs_pos_eq by (unfold x; lra). rewrite U. unfold x. lra.
Qed.

(** *** quaternions closer than a thousandth *)
Definition w12 : f64 := div (i64 16777215) (i64 16777217).
Definition x12 : f64 := div (i64 8192) (i64 16777217).
Lemma w12_val : is_finite w12 = true /\ Rabs (B2R w12 - 16777215 / 16777217) <= u53 / 2.
Proof.
  split; [vm_compute; reflexivity| ]. assert (X : B2SF w12 = SpecFloat.S754_finite false 9007198180999232 (-53)) by (vm_compute; reflexivity).
  rewrite (B2R_of_SF _ _ _ _ X), u53_val. change (bpow radix2 (-53)) with (/ 9007199254740992). apply Rabs_le. lra.
Qed.
Lemma x12_val : is_finite x12 = true /\ Rabs (B2R x12 - 8192 / 16777217) <= u53 / 2.
Proof.
  split; [vm_compute; reflexivity| ]. assert (X : B2SF x12 = SpecFloat.S754_finite false 9007198717870112 (-64)) by (vm_compute; reflexivity).
  rewrite (B2R_of_SF _ _ _ _ X), u53_val. change (bpow radix2 (-64)) with (/ 18446744073709551616). apply Rabs_le. lra.
Qed.
(** the threshold of the source, 0.001, up to its rounding *)
Definition lit_ok (O : FOracle f64) : Prop := is_finite (lit_1em3 : f64) = true /\ Rabs (B2R (lit_1em3 : f64) - / 1000) <= / 10 ^ 9.
Lemma root_12 (O : FOracle f64) : lit_ok O -> ltb (abs (fsqrt (sub one (mul w12 w12)))) (lit_1em3 : f64) = true.
Proof.
  intros [Fl Vl]. set (r := fsqrt (sub one (mul w12 w12))). assert (X : B2SF (abs r) = SpecFloat.S754_finite false 9007198717870064 (-64)) by (vm_compute; reflexivity).
  assert (Fr : is_finite (abs r) = true) by (vm_compute; reflexivity). change (ltb (abs r) lit_1em3) with (Bltb (abs r) lit_1em3). rewrite Bltb_correct by assumption. apply Rlt_bool_true.
  rewrite (B2R_of_SF _ _ _ _ X). change (bpow radix2 (-64)) with (/ 18446744073709551616). apply Rabs_le_inv in Vl. lra.
Qed.
Lemma zero64 : is_finite (i64 0) = true /\ B2R (i64 0) = 0.
Proof. exact (fofZ_int (prec := 53) (emax := 1024) 0 ltac:(cbn; lia)). Qed.
Lemma id64_close : close4 u53 id64 (q_new 1 [| 0; 0; 0 |]).
Proof.
  destruct one64 as [F1 V1]. destruct zero64 as [F0 V0]. pose proof u53_val as U.
  replace u53 with (2 * (u53 / 2)) by field. apply close_pair; [rewrite U; lra| ]. intros k Hk. destruct k as [ |[ |[ |[ |k]]]]; [ | | | |lia]; (split; [first [exact F1|exact F0]| ]).
  - change (Rabs (B2R (i64 1) - 1) <= u53 / 2). rewrite V1, U. apply Rabs_le; lra.
  - change (Rabs (B2R (i64 0) - 0) <= u53 / 2). rewrite V0, U. apply Rabs_le; lra.
  - change (Rabs (B2R (i64 0) - 0) <= u53 / 2). rewrite V0, U. apply Rabs_le; lra.
  - change (Rabs (B2R (i64 0) - 0) <= u53 / 2). rewrite V0, U. apply Rabs_le; lra.
Qed.

(** opposite signs: the zero quaternion, for every parameter *)
Lemma c101_zero_refuted : exists (a b : Quaternion f64) (A B : Quaternion R), unit_quat A /\ unit_quat B /\ close4 u53 a A /\ close4 u53 b B /\
  forall O : FOracle f64, lit_ok O -> forall t, q_slerp a b t = q_zero.
Proof.
  set (b := q_new (neg w12) [| x12; i64 0; i64 0 |]). exists id64, b, (q_new 1 [| 0; 0; 0 |]), (q_new (- (16777215 / 16777217)) [| 8192 / 16777217; 0; 0 |]).
  destruct w12_val as [Fw Vw]. destruct x12_val as [Fx Vx]. destruct zero64 as [F0 V0]. pose proof u53_val as U.
  split; [change (1 * 1 + 0 * 0 + 0 * 0 + 0 * 0 = 1); ring|split; [change (- (16777215 / 16777217) * - (16777215 / 16777217) + 8192 / 16777217 * (8192 / 16777217) + 0 * 0 + 0 * 0 = 1); lra|split; [exact id64_close|split]]].
  - replace u53 with (2 * (u53 / 2)) by field. apply close_pair; [rewrite U; lra| ]. intros k Hk. destruct k as [ |[ |[ |[ |k]]]]; [ | | | |lia].
    + change (is_finite (Bopp w12) = true /\ Rabs (B2R (Bopp w12) - - (16777215 / 16777217)) <= u53 / 2). rewrite is_finite_Bopp, B2R_Bopp. split; [exact Fw| ].
      replace (- B2R w12 - - (16777215 / 16777217)) with (- (B2R w12 - 16777215 / 16777217)) by ring. rewrite Rabs_Ropp. exact Vw.
    + split; [exact Fx|exact Vx].
    + split; [exact F0| ]. change (Rabs (B2R (i64 0) - 0) <= u53 / 2). rewrite V0, U. apply Rabs_le; lra.
    + split; [exact F0| ]. change (Rabs (B2R (i64 0) - 0) <= u53 / 2). rewrite V0, U. apply Rabs_le; lra.
  - intros O L t. unfold q_slerp. replace (leb one (abs (q_dot id64 b))) with false by (vm_compute; reflexivity). replace (ltb (q_dot id64 b) zero) with true by (vm_compute; reflexivity).
    cbv iota beta zeta. assert (E : ltb (abs (fsqrt (sub one (mul (neg (q_dot id64 b)) (neg (q_dot id64 b)))))) (lit_1em3 : f64) = true).
    { assert (N : neg (q_dot id64 b) = w12) by (apply B2SF_inj; vm_compute; reflexivity). rewrite N. apply root_12, L. }
    rewrite E. reflexivity.
Qed.

(** same signs: the second and third imaginary components of the target change places *)
Lemma c101_swapped_refuted : exists (a b : Quaternion f64) (A B : Quaternion R), unit_quat A /\ unit_quat B /\ close4 u53 a A /\ close4 u53 b B /\
  forall O : FOracle f64, lit_ok O -> q_slerp a b (i64 0) = a /\ forall sg, far4 (48 / 100000) (q_slerp a b (i64 1)) (either sg B).
Proof.
  set (b := q_new w12 [| i64 0; x12; i64 0 |]). set (B := q_new (16777215 / 16777217) [| 0; 8192 / 16777217; 0 |]). exists id64, b, (q_new 1 [| 0; 0; 0 |]), B.
  destruct w12_val as [Fw Vw]. destruct x12_val as [Fx Vx]. destruct zero64 as [F0 V0]. pose proof u53_val as U.
  split; [change (1 * 1 + 0 * 0 + 0 * 0 + 0 * 0 = 1); ring|split; [change (16777215 / 16777217 * (16777215 / 16777217) + 0 * 0 + 8192 / 16777217 * (8192 / 16777217) + 0 * 0 = 1); lra|split; [exact id64_close|split]]].
  - replace u53 with (2 * (u53 / 2)) by field. apply close_pair; [rewrite U; lra| ]. intros k Hk. destruct k as [ |[ |[ |[ |k]]]]; [ | | | |lia].
    + split; [exact Fw|exact Vw].
    + split; [exact F0| ]. change (Rabs (B2R (i64 0) - 0) <= u53 / 2). rewrite V0, U. apply Rabs_le; lra.
    + split; [exact Fx|exact Vx].
    + split; [exact F0| ]. change (Rabs (B2R (i64 0) - 0) <= u53 / 2). rewrite V0, U. apply Rabs_le; lra.
  - intros O L. assert (E : ltb (abs (fsqrt (sub one (mul (q_dot id64 b) (q_dot id64 b))))) (lit_1em3 : f64) = true).
    { assert (N : q_dot id64 b = w12) by (apply B2SF_inj; vm_compute; reflexivity). rewrite N. apply root_12, L. }
    assert (S : forall t, q_slerp id64 b t = mkQ (add (mul (sub one t) (i64 1)) (mul t w12)) [| add (mul (sub one t) (i64 0)) (mul t (i64 0)); add (mul (sub one t) (i64 0)) (mul t (i64 0)); add (mul (sub one t) (i64 0)) (mul t x12) |] (normalized (q_zero : Quaternion f64))).
    { intros t. unfold q_slerp. replace (leb one (abs (q_dot id64 b))) with false by (vm_compute; reflexivity). replace (ltb (q_dot id64 b) zero) with false by (vm_compute; reflexivity).
      cbv iota beta zeta. rewrite E. reflexivity. }
    split.
    + rewrite S. assert (C0 : add (mul (sub one (i64 0)) (i64 1)) (mul (i64 0) w12) = i64 1) by (apply B2SF_inj; vm_compute; reflexivity).
      assert (C1 : add (mul (sub one (i64 0)) (i64 0)) (mul (i64 0) (i64 0)) = i64 0) by (apply B2SF_inj; vm_compute; reflexivity).
      assert (C3 : add (mul (sub one (i64 0)) (i64 0)) (mul (i64 0) x12) = i64 0) by (apply B2SF_inj; vm_compute; reflexivity).
      rewrite C0, C1, C3. reflexivity.
    + intros sg. exists 2%nat. split; [lia| ]. rewrite S. 
      assert (Z : B2R (add (mul (sub one (i64 1)) (i64 0)) (mul (i64 1) (i64 0))) = 0) by (apply (B2R_of_SF0 _ false); vm_compute; reflexivity).
      change (48 / 100000 < Rabs (B2R (add (mul (sub one (i64 1)) (i64 0)) (mul (i64 1) (i64 0))) - rq (either sg B) 2%nat)). rewrite Z, (either_rq sg B 2) by lia. change (rq B 2%nat) with (8192 / 16777217).
      rewrite Rminus_0_l, Rabs_Ropp, Rabs_mult, sgn_abs, Rmult_1_l, Rabs_pos_eq; lra.
Qed.

#[local] Existing Instance nanO.
Lemma nanO_lit : lit_ok nanO.
Proof.
  pose proof uro53 as U. pose proof (uro_pos (prec := 53)) as P. change (is_finite (near (/ 10 ^ 3)) = true /\ Rabs (B2R (near (/ 10 ^ 3)) - / 1000) <= / 10 ^ 9).
  destruct (near_ok (/ 10 ^ 3) ltac:(apply Rabs_le; lra)) as [F V]. split; [exact F| ]. replace (/ 1000) with (/ 10 ^ 3) by lra. eapply Rle_trans; [exact V|lra].
Qed.

(** halfway between the identity and a quarter turn of the quaternion circle, given with the opposite sign *)
Example C101_case_half : let b := q_new (neg (near (cos (PI / 4)))) [| i64 0; i64 0; neg (near (sin (PI / 4))) |] in
  close4 (300 * u53) (q_slerp id64 b (div (i64 1) (i64 2))) (arc (q_new 1 [| 0; 0; 0 |]) (q_new 0 [| 0; 0; 1 |]) (PI / 8)).
Proof.
  intros b. pose proof uro53 as U. pose proof (uro_pos (prec := 53)) as P. pose proof PI_RGT_0 as Pi0.
  set (A := q_new 1 [| 0; 0; 0 |] : Quaternion R). set (W := q_new 0 [| 0; 0; 1 |] : Quaternion R).
  assert (X : B2SF (div (i64 1) (i64 2)) = SpecFloat.S754_finite false 4503599627370496 (-53)) by (vm_compute; reflexivity).
  assert (Fx : is_finite (div (i64 1) (i64 2)) = true) by (vm_compute; reflexivity).
  assert (Vx : B2R (div (i64 1) (i64 2)) = / 2).
  { rewrite (B2R_of_SF _ _ _ _ X). change (bpow radix2 (-53)) with (/ 9007199254740992). lra. }
  assert (S2 : sqrt 2 * sqrt 2 = 2) by (apply sqrt_sqrt; lra). assert (S20 : 0 < sqrt 2) by (apply sqrt_lt_R0; lra).
  assert (Vs : sin (PI / 4) * sin (PI / 4) = / 2) by (rewrite sin_PI4; field_simplify_eq; lra).
  assert (Sp : 0 < sin (PI / 4)) by (rewrite sin_PI4; apply Rdiv_lt_0_compat; lra). assert (Sl : / 2 <= sin (PI / 4)) by nra.
  assert (CS : cos (PI / 4) = sin (PI / 4)) by (rewrite sin_PI4, cos_PI4; reflexivity).
  destruct (near_ok (cos (PI / 4)) ltac:(apply Rabs_le, COS_bound)) as [Fc Vc]. destruct (near_ok (sin (PI / 4)) ltac:(apply Rabs_le, SIN_bound)) as [Fs Vsn].
  destruct zero64 as [F0 V0]. destruct nanO_lit as [Fl Vl]. apply Rabs_le_inv in Vl.
  assert (Ca : close4 (3 * u53) id64 A) by (destruct id64_close as [C1 C2]; split; [exact C1|eapply Rle_trans; [exact C2|lra]]).
  assert (Cb : close4 (3 * u53) b (either false (arc A W (PI / 4)))).
  { replace (3 * u53) with (2 * (3 / 2 * u53)) by field. apply close_pair; [lra| ]. intros k Hk. change (qcomp k (either false (arc A W (PI / 4)))) with (rq (either false (arc A W (PI / 4))) k).
    rewrite either_rq, arc_rq by exact Hk. unfold sgn. destruct k as [ |[ |[ |[ |k]]]]; [ | | | |lia].
    - change (is_finite (Bopp (near (cos (PI / 4)))) = true /\ Rabs (B2R (Bopp (near (cos (PI / 4)))) - -1 * (cos (PI / 4) * 1 + sin (PI / 4) * 0)) <= 3 / 2 * u53). rewrite is_finite_Bopp, B2R_Bopp. split; [exact Fc| ].
      replace (- B2R (near (cos (PI / 4))) - -1 * (cos (PI / 4) * 1 + sin (PI / 4) * 0)) with (- (B2R (near (cos (PI / 4))) - cos (PI / 4))) by ring. rewrite Rabs_Ropp. lra.
    - split; [exact F0| ]. change (Rabs (B2R (i64 0) - -1 * (cos (PI / 4) * 0 + sin (PI / 4) * 0)) <= 3 / 2 * u53). rewrite V0. apply Rabs_le; lra.
    - split; [exact F0| ]. change (Rabs (B2R (i64 0) - -1 * (cos (PI / 4) * 0 + sin (PI / 4) * 0)) <= 3 / 2 * u53). rewrite V0. apply Rabs_le; lra.
    - change (is_finite (Bopp (near (sin (PI / 4)))) = true /\ Rabs (B2R (Bopp (near (sin (PI / 4)))) - -1 * (cos (PI / 4) * 0 + sin (PI / 4) * 1)) <= 3 / 2 * u53). rewrite is_finite_Bopp, B2R_Bopp. split; [exact Fs| ].
      replace (- B2R (near (sin (PI / 4))) - -1 * (cos (PI / 4) * 0 + sin (PI / 4) * 1)) with (- (B2R (near (sin (PI / 4))) - sin (PI / 4))) by ring. rewrite Rabs_Ropp. lra. }
  assert (UA : unit_quat A) by (change (1 * 1 + 0 * 0 + 0 * 0 + 0 * 0 = 1); ring). assert (UW : unit_quat W) by (change (0 * 0 + 0 * 0 + 0 * 0 + 1 * 1 = 1); ring).
  assert (AW : qinner A W = 0) by (change (1 * 0 + 0 * 0 + 0 * 0 + 0 * 1 = 0); ring).
  pose proof (c101_slerp_partial (prec := 53) (emax := 1024) ltac:(lia) ltac:(lia) (2 * u53) (3 * u53) id64 b (div (i64 1) (i64 2)) A W false (PI / 4) UA UW AW ltac:(lra) Ca Cb nanO_acos Fl
    ltac:(lra) Fx ltac:(rewrite Vx; lra) ltac:(rewrite Vs; lra) ltac:(rewrite CS; lra)) as [G1 G2].
  rewrite Vx in G2. replace (/ 2 * (PI / 4)) with (PI / 8) in G2 by field. rewrite Vs in G2. split; [exact G1|eapply Rle_trans; [exact G2| ]]. lra.
Qed.

Example C101_case_zero : exists a b : Quaternion f64, close4 u53 a (q_new 1 [| 0; 0; 0 |]) /\ q_slerp a b (i64 1) = q_zero.
Proof.
  exists id64. exists (q_new (neg w12) [| x12; i64 0; i64 0 |]). split; [exact id64_close| ].
  unfold q_slerp. replace (leb one (abs (q_dot id64 (q_new (neg w12) [| x12; i64 0; i64 0 |])))) with false by (vm_compute; reflexivity). replace (ltb (q_dot id64 (q_new (neg w12) [| x12; i64 0; i64 0 |])) zero) with true by (vm_compute; reflexivity).
  cbv iota beta zeta. replace (neg (q_dot id64 (q_new (neg w12) [| x12; i64 0; i64 0 |]))) with w12 by (apply B2SF_inj; vm_compute; reflexivity). rewrite (root_12 nanO nanO_lit). reflexivity.
Qed.
