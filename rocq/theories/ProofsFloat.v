(** * ProofsFloat: theorems about IEEE floats (C17, C23, C49, C50) *)

From Coq Require Import List Arith ZArith Reals Bool Lra Lia.
From Flocq Require Import Core IEEE754.BinarySingleNaN.
From Verif Require Import Base Scalar Vec Mat2 Mat3 Mat4 Mat5 Mat6 Slices MatLoops MatOps RingDet Spec Entries DetEntries RelFacts InstZ InstR RFacts ProofsRing InstF FloatFacts.
Open Scope sc_scope.

(** the error [x] of [n] roundings against the sum [A] of the magnitudes *)
Definition err (prec emax : Z) (n : nat) (x A : R) : Prop :=
  (Rabs x <= ((1 + uro (prec := prec)) ^ n - 1) * A + INR n * (1 + uro (prec := prec)) ^ n * eta (prec := prec) (emax := emax))%R.

Section F.
Context {prec emax : Z} {Hp : Prec_gt_0 prec} {He : Prec_lt_emax prec emax}.
Notation fl := (binary_float prec emax).
Notation err := (err prec emax).

(** ** C17: which laws hold bit for bit *)

Lemma c17_float_vadd_comm : forall d (v w : arr fl (dimn d)), d_vadd d v w = d_vadd d w v.
Proof.
  intros d v w. apply vfun_ext; intros i Hi. rewrite !d_vadd_entry by assumption. apply Bplus_comm.
Qed.

Lemma c17_float_add_comm : forall d (A B : mat fl (dimn d)), d_add d A B = d_add d B A.
Proof.
  intros d A B. apply mfun_ext; intros i j Hi Hj. rewrite !d_add_entry by assumption. apply Bplus_comm.
Qed.

Lemma c17_float_vlscale : forall d (v : arr fl (dimn d)) s, d_vlscale d s v = d_vscale d v s.
Proof.
  intros d v s. apply vfun_ext; intros i Hi. rewrite d_vscale_entry by assumption.
  destruct (d_vlscale_entry d v s i Hi) as [-> | ->]; [reflexivity|apply Bmult_comm].
Qed.

Lemma Bminus_plus (x y : fl) : Bminus mode_NE x y = Bplus mode_NE x (Bopp y).
Proof.
  destruct x as [sx|sx| |sx mx ex Hx], y as [sy|sy| |sy my ey Hy]; reflexivity.
Qed.

Lemma c17_float_sub_neg : forall d (A B : mat fl (dimn d)), d_sub d A B = d_add d A (d_neg d B).
Proof.
  intros d A B. apply mfun_ext; intros i j Hi Hj. rewrite d_sub_entry, d_add_entry, d_neg_entry by assumption.
  apply Bminus_plus.
Qed.

Lemma c17_float_vsub_neg : forall d (v w : arr fl (dimn d)), d_vsub d v w = d_vadd d v (d_vneg d w).
Proof.
  intros d v w. apply vfun_ext; intros i Hi. rewrite d_vsub_entry, d_vadd_entry, d_vneg_entry by assumption.
  apply Bminus_plus.
Qed.

Lemma c17_float_neg_neg : forall d (A : mat fl (dimn d)), d_neg d (d_neg d A) = A.
Proof.
  intros d A. apply mfun_ext; intros i j Hi Hj. rewrite !d_neg_entry by assumption. apply Bopp_involutive.
Qed.

Lemma dotl_comm n (f g : nat -> fl) : dotl n f g = dotl n g f.
Proof.
  induction n as [ |n IH]; [reflexivity| ]. destruct n as [ |n]; [apply Bmult_comm| ].
  rewrite (dotl_S (S n) f g), (dotl_S (S n) g f) by lia. rewrite IH. f_equal. apply Bmult_comm.
Qed.

Lemma c17_float_dot_comm : forall d (v w : arr fl (dimn d)), d_vdot d v w = d_vdot d w v.
Proof. intros d v w. rewrite !d_vdot_dotl. apply dotl_comm. Qed.

(** addition of floats is not associative, so the module laws above stop here:
    2^prec + 1 + 1 in the two orders *)

(** ** C23: the comparison helpers on floats *)
Context {O : FOracle fl}.

Lemma c23_symmetric : forall a b e : fl, nearly_equal a b e = nearly_equal b a e.
Proof.
  intros a b e. unfold nearly_equal. cbn [eqb abs add sub div ltb F_Num F_Signed F_POrd].
  rewrite (Beqb_sym a b), (Bplus_comm (Babs a) (Babs b)), (Babs_minus_comm a b).
  destruct (Beqb a (zero : fl)), (Beqb b (zero : fl)); reflexivity.
Qed.

Lemma c23_reflexive : forall a e : fl, nearly_equal a a e = negb (is_nan a).
Proof.
  intros a e. unfold nearly_equal. cbn [eqb F_Num]. rewrite Beqb_refl.
  destruct a as [s|s| |s m x H]; reflexivity.
Qed.

Lemma Bltb_nan_l (e : fl) : Bltb B754_nan e = false.
Proof. destruct e; reflexivity. Qed.

Lemma c23_nan : forall a e : fl, nearly_equal B754_nan a e = false /\ nearly_equal a B754_nan e = false.
Proof.
  intros a e. rewrite (c23_symmetric a). 
  assert (X : nearly_equal B754_nan a e = false); [ |now split].
  unfold nearly_equal. cbn [eqb abs add sub div ltb F_Num F_Signed F_POrd].
  replace (Beqb B754_nan a) with false by (destruct a; reflexivity).
  change (Bminus mode_NE B754_nan a) with (B754_nan : fl).
  change (Babs (B754_nan : fl)) with (B754_nan : fl).
  change (Bdiv mode_NE B754_nan _) with (B754_nan : fl). rewrite Bltb_nan_l.
  destruct (_ || _); reflexivity.
Qed.

(** comparison with zero is absolute *)
Lemma c23_zero : forall a e : fl,
  nearly_equal a zero e = Beqb a (B754_zero false) || Bltb (Babs a) e.
Proof.
  intros a e. unfold nearly_equal. cbn [eqb abs add sub div ltb zero F_Num F_Signed F_POrd].
  destruct (Beqb a (B754_zero false)) eqn:E; [reflexivity| ].
  change (Beqb (B754_zero false : fl) (B754_zero false)) with true. rewrite orb_true_r. cbn [orb].
  destruct a as [s|s| |s m x H]; try reflexivity. exfalso. destruct s; discriminate E.
Qed.

Lemma c23_nearly_zero : forall a : fl,
  nearly_zero a = Beqb a (B754_zero false) || Bltb (Babs a) (epsilon : fl).
Proof. intros a. apply c23_zero. Qed.

(** an infinity is nearly equal to itself only *)
Lemma c23_infinity : forall s (b e : fl), nearly_equal (B754_infinity s) b e = Beqb (B754_infinity s) b.
Proof.
  intros s b e. unfold nearly_equal. cbn [eqb abs add sub div ltb zero fmin max_value min_value F_Num F_Signed F_POrd F_Float].
  destruct (Beqb (B754_infinity s) b) eqn:E; [reflexivity| ].
  assert (LI : Bltb (B754_infinity false) e = false) by (destruct e as [[]|[]| |[] ]; reflexivity).
  destruct b as [sb|sb| |sb mb eb Hb].
  - replace (Beqb (B754_zero sb) (B754_zero false : fl)) with true by (destruct sb; reflexivity).
    rewrite orb_true_r. cbn [orb]. exact LI.
  - change (Beqb (B754_infinity sb : fl) (B754_zero false)) with (Beqb (B754_infinity sb : fl) (B754_zero false)).
    destruct s, sb; try discriminate E; cbn; destruct e as [[]|[]| |[] ]; reflexivity.
  - change (Bminus mode_NE (B754_infinity s) B754_nan) with (B754_nan : fl). cbn [Babs].
    change (Bdiv mode_NE B754_nan _) with (B754_nan : fl). rewrite Bltb_nan_l. destruct (_ || _); reflexivity.
  - assert (X : exists m x H, (Bmax_float : fl) = B754_finite false m x H) by (unfold Bmax_float; cbn; eauto).
    destruct X as (m & x & H & ->). cbn -[Bltb]. change (Bltb (B754_finite false m x H) (B754_infinity false)) with true.
    change (Bltb (B754_infinity false) (B754_finite true m x H)) with false.
    replace (Beqb (B754_infinity s) (B754_zero false : fl)) with false by (destruct s; reflexivity).
    replace (Beqb (B754_finite sb mb eb Hb) (B754_zero false : fl)) with false by (destruct sb; reflexivity).
    destruct s, sb; cbn -[Bltb]; exact LI.
Qed.

(** a larger tolerance accepts more *)
Lemma Bltb_leb_trans (x y z : fl) : Bltb x y = true -> Bleb y z = true -> Bltb x z = true.
Proof.
  intros A B.
  destruct (is_finite x) eqn:Fx; destruct (is_finite y) eqn:Fy; destruct (is_finite z) eqn:Fz.
  - rewrite Bltb_correct in A |- * by assumption. rewrite Bleb_correct in B by assumption.
    destruct (Rlt_bool_spec (B2R x) (B2R y)); [ |discriminate]. destruct (Rle_bool_spec (B2R y) (B2R z)); [ |discriminate].
    apply Rlt_bool_true. lra.
  - destruct x, y, z; try discriminate; try match goal with s : bool |- _ => destruct s; try discriminate; fail end;
      repeat match goal with s : bool |- _ => destruct s end; try discriminate; reflexivity.
  - destruct x, y, z; try discriminate; repeat match goal with s : bool |- _ => destruct s end; try discriminate; reflexivity.
  - destruct x, y, z; try discriminate; repeat match goal with s : bool |- _ => destruct s end; try discriminate; reflexivity.
  - destruct x, y, z; try discriminate; repeat match goal with s : bool |- _ => destruct s end; try discriminate; reflexivity.
  - destruct x, y, z; try discriminate; repeat match goal with s : bool |- _ => destruct s end; try discriminate; reflexivity.
  - destruct x, y, z; try discriminate; repeat match goal with s : bool |- _ => destruct s end; try discriminate; reflexivity.
  - destruct x, y, z; try discriminate; repeat match goal with s : bool |- _ => destruct s end; try discriminate; reflexivity.
Qed.

Lemma c23_monotone : forall a b e e' : fl, Bleb e e' = true -> nearly_equal a b e = true -> nearly_equal a b e' = true.
Proof.
  intros a b e e' L. unfold nearly_equal. cbn [eqb abs add sub div ltb zero fmin max_value min_value F_Num F_Signed F_POrd F_Float].
  destruct (Beqb a b); [reflexivity| ].
  destruct (Beqb a _ || Beqb b _ || Bltb _ _)%bool; intros H; exact (Bltb_leb_trans _ _ _ H L).
Qed.

(** ** C50: rounding errors of dot products and matrix products

    The only hypothesis is that the computed result is finite; it implies that
    no intermediate result overflowed. *)

Lemma sumn_sum_f n (f : nat -> R) : (0 < n)%nat -> sumn n f = sum_f_R0 f (n - 1).
Proof.
  induction n as [ |n IH]; [lia| ]. intros _. destruct n as [ |n].
  - cbn. apply Rplus_0_l.
  - change (sumn (S (S n)) f) with (Rplus (sumn (S n) f) (f (S n))). rewrite IH by lia.
    replace (S (S n) - 1)%nat with (S n) by lia. replace (S n - 1)%nat with n by lia. reflexivity.
Qed.

Lemma c50_dot_error : forall d (v w : arr fl (dimn d)), is_finite (d_vdot d v w) = true ->
  (forall k, k < dimn d -> is_finite (vfun v k) = true /\ is_finite (vfun w k) = true)
  /\ err (dimn d) (B2R (d_vdot d v w) - sumn (dimn d) (fun k => B2R (vfun v k) * B2R (vfun w k)))
       (sumn (dimn d) (fun k => Rabs (B2R (vfun v k) * B2R (vfun w k)))).
Proof.
  intros d v w F. rewrite d_vdot_dotl in *. assert (P : 0 < dimn d) by (destruct d; cbn; lia).
  rewrite !sumn_sum_f by exact P. exact (dotl_error _ _ _ P F).
Qed.

Lemma c50_mul_v_error : forall d (A : mat fl (dimn d)) v i, i < dimn d ->
  is_finite (vfun (d_mul_v d A v) i) = true ->
  err (dimn d) (B2R (vfun (d_mul_v d A v) i) - sumn (dimn d) (fun k => B2R (mfun A i k) * B2R (vfun v k)))
    (sumn (dimn d) (fun k => Rabs (B2R (mfun A i k) * B2R (vfun v k)))).
Proof.
  intros d A v i Hi F. rewrite d_mul_v_dotl in * by exact Hi. assert (P : 0 < dimn d) by (destruct d; cbn; lia).
  rewrite !sumn_sum_f by exact P. exact (proj2 (dotl_error _ _ _ P F)).
Qed.

Lemma c50_mul_error : forall d (A B : mat fl (dimn d)) i j, i < dimn d -> j < dimn d ->
  is_finite (mfun (d_mul d A B) i j) = true ->
  err (dimn d) (B2R (mfun (d_mul d A B) i j) - sumn (dimn d) (fun k => B2R (mfun A i k) * B2R (mfun B k j)))
    (sumn (dimn d) (fun k => Rabs (B2R (mfun A i k) * B2R (mfun B k j)))).
Proof.
  intros d A B i j Hi Hj F. rewrite d_mul_dotl in * by assumption. assert (P : 0 < dimn d) by (destruct d; cbn; lia).
  rewrite <- (sumn_ord R_ring d i (fun k => B2R (mfun A i k) * B2R (mfun B k j))%R).
  rewrite <- (sumn_ord R_ring d i (fun k => Rabs (B2R (mfun A i k) * B2R (mfun B k j)))).
  rewrite !sumn_sum_f by exact P. exact (proj2 (dotl_error _ _ _ P F)).
Qed.

(** the same bound with the usual constant [gamma_n = n u / (1 - n u)] *)
Lemma c50_gamma : forall n, (INR n * uro (prec := prec) < 1)%R ->
  ((1 + uro (prec := prec)) ^ n - 1 <= INR n * uro (prec := prec) / (1 - INR n * uro (prec := prec)))%R.
Proof. intros n. apply pow_gamma, uro_pos. Qed.

(** ** C49: integer-valued inputs *)

(** [x] is finite with the integer value [n] *)
Definition intval (x : fl) (n : Z) : Prop := is_finite x = true /\ B2R x = IZR n.

Lemma prec_bounds : (0 < prec /\ prec + 1 <= emax /\ 3 - emax - prec <= 0)%Z.
Proof. unfold Prec_gt_0, Prec_lt_emax in *. lia. Qed.

Lemma int_format n : (Z.abs n <= 2 ^ prec)%Z -> generic_format radix2 (FLT_exp (3 - emax - prec) prec) (IZR n).
Proof.
  intros H. pose proof prec_bounds as (P & _ & E).
  destruct (Z.eq_dec (Z.abs n) (2 ^ prec)) as [Q|Q].
  - assert (B : generic_format radix2 (FLT_exp (3 - emax - prec) prec) (bpow radix2 prec)).
    { apply generic_format_bpow. unfold FLT_exp. lia. }
    rewrite <- (IZR_Zpower radix2 prec) in B by lia. change (Zpower radix2 prec) with (2 ^ prec)%Z in B.
    destruct (Z.abs_spec n) as [[_ A]|[_ A]].
    + rewrite <- Q, A in B. exact B.
    + replace n with (- (2 ^ prec))%Z by lia. rewrite opp_IZR. now apply generic_format_opp.
  - apply generic_format_FLT. exists (Defs.Float radix2 n 0); cbn.
    + unfold F2R. cbn. ring.
    + lia.
    + exact E.
Qed.

Lemma int_no_overflow n : (Z.abs n <= 2 ^ prec)%Z -> (Rabs (IZR n) < bpow radix2 emax)%R.
Proof.
  intros H. pose proof prec_bounds as (P & L & E). rewrite <- abs_IZR.
  apply Rle_lt_trans with (bpow radix2 prec).
  - rewrite <- IZR_Zpower by lia. now apply IZR_le.
  - apply bpow_lt. lia.
Qed.

Lemma intval_plus x y n m : intval x n -> intval y m -> (Z.abs (n + m) <= 2 ^ prec)%Z -> intval (Bplus mode_NE x y) (n + m).
Proof.
  intros [Fx Ex] [Fy Ey] H. pose proof (Bplus_correct prec emax Hp He mode_NE x y Fx Fy) as C.
  rewrite Ex, Ey, <- plus_IZR in C. rewrite round_generic in C; [ |apply valid_rnd_round_mode|now apply int_format].
  rewrite Rlt_bool_true in C by now apply int_no_overflow. split; apply C.
Qed.

Lemma intval_minus x y n m : intval x n -> intval y m -> (Z.abs (n - m) <= 2 ^ prec)%Z -> intval (Bminus mode_NE x y) (n - m).
Proof.
  intros [Fx Ex] [Fy Ey] H. pose proof (Bminus_correct prec emax Hp He mode_NE x y Fx Fy) as C.
  rewrite Ex, Ey, <- minus_IZR in C. rewrite round_generic in C; [ |apply valid_rnd_round_mode|now apply int_format].
  rewrite Rlt_bool_true in C by now apply int_no_overflow. split; apply C.
Qed.

Lemma intval_mult x y n m : intval x n -> intval y m -> (Z.abs (n * m) <= 2 ^ prec)%Z -> intval (Bmult mode_NE x y) (n * m).
Proof.
  intros [Fx Ex] [Fy Ey] H. pose proof (Bmult_correct prec emax Hp He mode_NE x y) as C.
  rewrite Ex, Ey, <- mult_IZR in C. rewrite round_generic in C; [ |apply valid_rnd_round_mode|now apply int_format].
  rewrite Rlt_bool_true in C by now apply int_no_overflow. destruct C as (C1 & C2 & _). rewrite Fx, Fy in C2. now split.
Qed.

Lemma intval_opp x n : intval x n -> intval (Bopp x) (- n).
Proof. intros [Fx Ex]. split; [now rewrite is_finite_Bopp|rewrite B2R_Bopp, Ex, opp_IZR; reflexivity]. Qed.

Lemma dotl_int n (f g : nat -> fl) (F G : nat -> Z) : 0 < n ->
  (forall k, k < n -> intval (f k) (F k) /\ intval (g k) (G k)) ->
  (sumn n (fun k => Z.abs (F k * G k)) <= 2 ^ prec)%Z ->
  intval (dotl n f g) (sumn n (fun k => (F k * G k)%Z)).
Proof.
  intros P H B.
  assert (A : forall m, (Z.abs (sumn m (fun k => (F k * G k)%Z)) <= sumn m (fun k => Z.abs (F k * G k)))%Z
                      /\ (0 <= sumn m (fun k => Z.abs (F k * G k)))%Z).
  { induction m as [ |m IH]; [cbn; lia| ]. cbn [sumn add Z_Num]. lia. }
  induction n as [ |n IH]; [lia| ]. cbn [sumn add Z_Num] in B |- *. pose proof (A n) as An.
  destruct (H n ltac:(lia)) as [Hf Hg]. destruct n as [ |n].
  - cbn [sumn zero Z_Num]. rewrite Z.add_0_l. apply intval_mult; [assumption|assumption|cbn [sumn zero Z_Num] in B; lia].
  - rewrite dotl_S by lia. apply intval_plus.
    + apply IH; [lia|intros k Hk; apply H; lia|lia].
    + apply intval_mult; try assumption. lia.
    + lia.
Qed.

Lemma c49_dot_exact : forall d (v w : arr fl (dimn d)) (V W : arr Z (dimn d)),
  (forall k, k < dimn d -> intval (vfun v k) (vfun V k) /\ intval (vfun w k) (vfun W k)) ->
  (sumn (dimn d) (fun k => Z.abs (vfun V k * vfun W k)) <= 2 ^ prec)%Z ->
  intval (d_vdot d v w) (sumn (dimn d) (fun k => (vfun V k * vfun W k)%Z)).
Proof.
  intros d v w V W H B. rewrite d_vdot_dotl. apply dotl_int; [destruct d; cbn; lia|exact H|exact B].
Qed.

Lemma c49_mul_v_exact : forall d (A : mat fl (dimn d)) v (A' : mat Z (dimn d)) (V : arr Z (dimn d)) i,
  (forall k, k < dimn d -> intval (mfun A i k) (mfun A' i k) /\ intval (vfun v k) (vfun V k)) -> i < dimn d ->
  (sumn (dimn d) (fun k => Z.abs (mfun A' i k * vfun V k)) <= 2 ^ prec)%Z ->
  intval (vfun (d_mul_v d A v) i) (sumn (dimn d) (fun k => (mfun A' i k * vfun V k)%Z)).
Proof.
  intros d A v A' V i H Hi B. rewrite d_mul_v_dotl by exact Hi.
  apply (dotl_int _ _ _ (fun k => mfun A' i k) (vfun V)); [destruct d; cbn; lia|exact H|exact B].
Qed.

Lemma c49_mul_exact : forall d (A B : mat fl (dimn d)) (A' B' : mat Z (dimn d)) i j,
  (forall k, k < dimn d -> intval (mfun A i k) (mfun A' i k) /\ intval (mfun B k j) (mfun B' k j)) ->
  i < dimn d -> j < dimn d ->
  (sumn (dimn d) (fun k => Z.abs (mfun A' i k * mfun B' k j)) <= 2 ^ prec)%Z ->
  intval (mfun (d_mul d A B) i j) (sumn (dimn d) (fun k => (mfun A' i k * mfun B' k j)%Z)).
Proof.
  intros d A B A' B' i j H Hi Hj L. rewrite d_mul_dotl by assumption.
  rewrite <- (sumn_ord Z_ring d i (fun k => (mfun A' i k * mfun B' k j)%Z)).
  rewrite <- (sumn_ord Z_ring d i (fun k => Z.abs (mfun A' i k * mfun B' k j))) in L.
  apply (dotl_int _ _ _ (fun k => mfun A' i (ord d i k)) (fun k => mfun B' (ord d i k) j)).
  - destruct d; cbn; lia.
  - intros k Hk. apply H. destruct d; try exact Hk. change (ord D4 i k) with (if Nat.eqb i 2 then ((k + 1) mod 4)%nat else k).
    destruct (Nat.eqb i 2); [apply (Nat.mod_upper_bound (k + 1) 4); discriminate|exact Hk].
  - exact L.
Qed.

(** Determinants: the float code, the integer code and a bound, side by side.
    The float has the integer value as long as the bound stays within [2^prec]. *)
Definition tri (x : fl) (n b : Z) : Prop :=
  (1 <= b /\ Z.abs n <= b)%Z /\ ((b <= 2 ^ prec)%Z -> intval x n).

(** bounds: subtraction adds them *)
Definition bnd_Num : Num Z := {|
  zero := 1%Z; one := 1%Z; add := Z.add; sub := Z.add; mul := Z.mul; div := fun a b => a; eqb := fun a b => true
|}.

Lemma tri_det d (x : mat fl (dimn d)) (n : mat Z (dimn d)) (b : mat Z (dimn d)) :
  rel_mat tri _ _ x n b -> tri (d_det d x) (d_det d n) (@d_det Z bnd_Num d b).
Proof.
  apply (rel_det (N3 := bnd_Num) tri).
  - intros x1 x2 n1 n2 b1 b2 [A A'] [B B']. cbn. split; [lia| ]. intros L. apply intval_plus; [apply A'; lia|apply B'; lia|lia].
  - intros x1 x2 n1 n2 b1 b2 [A A'] [B B']. cbn. split; [lia| ]. intros L. apply intval_minus; [apply A'; lia|apply B'; lia|lia].
  - intros x1 x2 n1 n2 b1 b2 [A A'] [B B']. cbn.
    assert (Z.abs (n1 * n2) <= b1 * b2)%Z by (rewrite Z.abs_mul; apply Z.mul_le_mono_nonneg; lia).
    split; [nia| ]. intros L. apply intval_mult; [apply A'; nia|apply B'; nia|lia].
Qed.

Lemma bnd_det d (K : Z) : @d_det Z bnd_Num d (amake _ (amake _ K)) = (Z.of_nat (fact (dimn d)) * K ^ Z.of_nat (dimn d))%Z.
Proof.
  destruct d;
    lazy beta iota zeta delta [d_det m22_det m33_det m44_det m55_det m66_det ix0 ix1 ix2 ix3 ix4 ix5 ahd atl fst snd
      amake dimn add sub mul bnd_Num].
  - change (Z.of_nat (fact 2)) with 2%Z. change (Z.of_nat 2) with 2%Z. ring.
  - change (Z.of_nat (fact 3)) with 6%Z. change (Z.of_nat 3) with 3%Z. ring.
  - change (Z.of_nat (fact 4)) with 24%Z. change (Z.of_nat 4) with 4%Z. ring.
  - change (Z.of_nat (fact 5)) with 120%Z. change (Z.of_nat 5) with 5%Z. ring.
  - replace (Z.of_nat (fact 6)) with 720%Z by (vm_compute; reflexivity). change (Z.of_nat 6) with 6%Z. ring.
Qed.

Lemma rel_row_intro (K : Z) n (x : arr fl n) (m : arr Z n) :
  (forall j, j < n -> tri (vfun x j) (vfun m j) K) -> rel_row tri n x m (amake n K).
Proof.
  induction n as [ |n IH]; intros H; [exact I| ]. split; [exact (H 0%nat ltac:(lia))| ].
  apply IH. intros j Hj. exact (H (S j) ltac:(lia)).
Qed.
Lemma rel_mat_intro (K : Z) n m (x : arr (arr fl n) m) (y : arr (arr Z n) m) :
  (forall i j, i < m -> j < n -> tri (mfun x i j) (mfun y i j) K) -> rel_mat tri n m x y (amake m (amake n K)).
Proof.
  induction m as [ |m IH]; intros H; [exact I| ]. split.
  - apply rel_row_intro. intros j Hj. exact (H 0%nat j ltac:(lia) Hj).
  - apply IH. intros i j Hi Hj. exact (H (S i) j ltac:(lia) Hj).
Qed.

(** the specification [ldet] is the Laplace expansion of Spec.v; C04 relates it
    to the integer code *)
Lemma c49_det_exact : forall d (x : mat fl (dimn d)) (n : mat Z (dimn d)) K, (1 <= K)%Z ->
  (forall i j, i < dimn d -> j < dimn d -> intval (mfun x i j) (mfun n i j) /\ (Z.abs (mfun n i j) <= K)%Z) ->
  (Z.of_nat (fact (dimn d)) * K ^ Z.of_nat (dimn d) <= 2 ^ prec)%Z ->
  intval (d_det d x) (ldet (dimn d) (mfun n)).
Proof.
  intros d x n K HK H B.
  assert (R : rel_mat tri _ _ x n (amake _ (amake _ K))).
  { apply rel_mat_intro. intros i j Hi Hj. destruct (H i j Hi Hj) as [I L]. split; [lia|intros _; exact I]. }
  apply tri_det in R. rewrite bnd_det in R. rewrite (d_det_ldet Z_ring) in R. exact (proj2 R B).
Qed.

Lemma fofZ_int n : (Z.abs n <= 2 ^ prec)%Z -> intval (fofZ n) n.
Proof.
  intros H. pose proof (binary_normalize_correct prec emax Hp He mode_NE n 0 false) as C.
  assert (E : F2R (Defs.Float radix2 n 0) = IZR n) by (unfold F2R; cbn; ring).
  cbv zeta in C. rewrite E, round_generic in C; [ |apply valid_rnd_round_mode|now apply int_format].
  rewrite Rlt_bool_true in C by now apply int_no_overflow. split; apply C.
Qed.

End F.

(** in exact arithmetic, two non-zero numbers are compared relative to their size *)
Lemma c23_relative_R : forall {K : RConsts} (OK : RConstsOk K) (a b e : R), a <> 0%R -> b <> 0%R ->
  nearly_equal a b e = true <-> (a = b \/ Rabs (a - b) < e * Rmin (Rabs a + Rabs b) r_max)%R.
Proof.
  intros K OK a b e Ha Hb. unfold nearly_equal.
  cbn [eqb abs add sub div ltb zero fmin max_value min_value R_Num R_Signed R_POrd R_Float].
  pose proof (max_large K OK) as Hm. pose proof (Rabs_pos_lt a Ha). pose proof (Rabs_pos_lt b Hb).
  destruct (Reqb_spec a b) as [->|N]; [split; auto| ].
  destruct (Reqb_spec a 0); [contradiction| ]. destruct (Reqb_spec b 0); [contradiction| ]. cbn [orb].
  destruct (Rltb (Rabs a + Rabs b) (- r_max)) eqn:L; [apply Rltb_true in L; lra| ].
  rewrite Rltb_true.
  assert (P : (0 < Rmin (Rabs a + Rabs b) r_max)%R) by (apply Rmin_glb_lt; lra).
  split.
  - intros Q. right. apply (Rmult_lt_compat_r (Rmin (Rabs a + Rabs b) r_max)) in Q; [ |exact P].
    unfold Rdiv in Q. rewrite Rmult_assoc, Rinv_l, Rmult_1_r in Q by lra. exact Q.
  - intros [Q|Q]; [contradiction| ]. apply (Rmult_lt_reg_r (Rmin (Rabs a + Rabs b) r_max)); [exact P| ].
    unfold Rdiv. rewrite Rmult_assoc, Rinv_l, Rmult_1_r by lra. exact Q.
Qed.

(** ** concrete cases: f64 and f32 *)
Section Examples.
#[local] Instance p53 : Prec_gt_0 53. Proof. reflexivity. Qed.
#[local] Instance e1024 : Prec_lt_emax 53 1024. Proof. reflexivity. Qed.
#[local] Instance p24 : Prec_gt_0 24. Proof. reflexivity. Qed.
#[local] Instance e128 : Prec_lt_emax 24 128. Proof. reflexivity. Qed.
Notation f64 := (binary_float 53 1024).
Notation f32 := (binary_float 24 128).

Let third : f64 := Bdiv mode_NE (fofZ 1) (fofZ 3).

(** additions of the examples are not trivial: they round, overflow and meet NaN *)
Example C17_float_rounds : let v : V2 f64 := [|third; Bmax_float|] in let w : V2 f64 := [|fofZ 7; Bmax_float|] in
  d_vadd D2 v w = d_vadd D2 w v /\ d_vadd D2 v w <> v /\ ix1 (d_vadd D2 v w) = B754_infinity false.
Proof.
  split; [apply (c17_float_vadd_comm D2)| ]. split; [ |apply B2SF_inj; vm_compute; reflexivity].
  intros E. assert (F : B2SF (ix0 (d_vadd D2 [|third; Bmax_float|] [|fofZ 7; Bmax_float|])) = B2SF third) by (rewrite E; reflexivity).
  vm_compute in F. discriminate.
Qed.

(** associativity, one of the ring laws, fails for floats *)
Example C17_float_add_not_assoc : exists u v w : V2 f64, d_vadd D2 (d_vadd D2 u v) w <> d_vadd D2 u (d_vadd D2 v w).
Proof.
  exists [|Bmax_float; fofZ 0|], [|Bmax_float; fofZ 0|], [|Bopp Bmax_float; fofZ 0|]. intros E.
  assert (F : forall x y : V2 f64, x = y -> B2SF (ix0 x) = B2SF (ix0 y)) by (intros x y ->; reflexivity).
  apply F in E. vm_compute in E. discriminate.
Qed.

Example C23_cases {O : FOracle f64} : let e : f64 := third in
  nearly_equal (B754_infinity true) (B754_infinity true) e = true
  /\ nearly_equal (fofZ 3) (fofZ 4) e = true /\ nearly_equal (fofZ 3) (fofZ 40) e = false
  /\ nearly_equal (B754_zero true) (B754_zero false) e = true /\ nearly_equal (B754_nan : f64) B754_nan e = false.
Proof. vm_compute. repeat split. Qed.

Example C50_case : is_finite (d_vdot D3 [|third; fofZ 1; Bopp third|] [|third; third; fofZ 7|]) = true.
Proof. vm_compute. reflexivity. Qed.

Example C50_case_mul : let A := [| [|third; fofZ 1|]; [|fofZ 5; Bopp third|] |] in
  is_finite (mfun (d_mul D2 A A) 1 0) = true /\ (INR 6 * uro (prec := 53) < 1)%R.
Proof.
  split; [vm_compute; reflexivity| ]. unfold uro. cbn -[bpow]. rewrite (bpow_plus radix2 0 (-52)) || idtac.
  assert (bpow radix2 (1 - 53) <= bpow radix2 (-4))%R by (apply bpow_le; lia).
  assert (E : bpow radix2 (-4) = (/ 16)%R) by reflexivity. rewrite E in H. cbn [Z.sub Z.add Z.opp Z.pos_sub] in *. 
  change (1 - 53)%Z with (-52)%Z in *. lra.
Qed.

Let big : M33 f64 := [| [|fofZ 100000; fofZ (-3); fofZ 7|]; [|fofZ 12; fofZ 99999; fofZ (-5)|]; [|fofZ 1; fofZ 0; fofZ (-100000)|] |].
Let bigZ : M33 Z := [| [|100000; -3; 7|]; [|12; 99999; -5|]; [|1; 0; -100000|] |]%Z.

Example C49_det_case : intval (d_det D3 big) (-999990004299978)%Z.
Proof.
  refine (eq_ind _ (intval (d_det D3 big)) (c49_det_exact D3 big bigZ 100000 _ _ _) _ _).
  - lia.
  - intros i j Hi Hj. cbn [dimn] in *.
    assert (Hi' : i = 0 \/ i = 1 \/ i = 2) by lia. assert (Hj' : j = 0 \/ j = 1 \/ j = 2) by lia.
    destruct Hi' as [-> | [-> | ->]], Hj' as [-> | [-> | ->]]; (split; [apply fofZ_int; vm_compute; discriminate|vm_compute; discriminate]).
  - vm_compute. discriminate.
  - vm_compute. reflexivity.
Qed.

(** the bound matters: f32, 2^24 + 1 *)
Example C49_bound_needed : exists v w : V2 f32, intval (ix0 v) (2 ^ 24) /\ intval (ix1 v) 1 /\ intval (ix0 w) 1 /\ intval (ix1 w) 1
  /\ ~ intval (d_vdot D2 v w) (2 ^ 24 + 1).
Proof.
  exists [|fofZ (2 ^ 24); fofZ 1|], [|fofZ 1; fofZ 1|].
  do 4 (split; [apply fofZ_int; vm_compute; discriminate| ]). intros [_ E].
  assert (D : d_vdot D2 [|fofZ (2 ^ 24); fofZ 1|] [|fofZ 1; fofZ 1|] = fofZ (prec := 24) (emax := 128) (2 ^ 24)).
  { apply B2SF_inj. vm_compute. reflexivity. }
  rewrite D in E. rewrite (proj2 (fofZ_int (prec := 24) (emax := 128) (2 ^ 24) ltac:(vm_compute; discriminate))) in E.
  apply eq_IZR in E. vm_compute in E. discriminate.
Qed.

Example C49_dot_case : intval (d_vdot D2 [|fofZ 3000; fofZ (-7)|] [|fofZ 2000; fofZ (prec := 24) (emax := 128) 9|]) 5999937.
Proof.
  apply (c49_dot_exact D2 [|fofZ 3000; fofZ (-7)|] [|fofZ 2000; fofZ (prec := 24) (emax := 128) 9|] [|3000; -7|]%Z [|2000; 9|]%Z).
  - intros k Hk. cbn [dimn] in Hk. assert (H : k = 0 \/ k = 1) by lia.
    destruct H as [-> | ->]; split; apply fofZ_int; vm_compute; discriminate.
  - vm_compute. discriminate.
Qed.
End Examples.
