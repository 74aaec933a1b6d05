(** * ProofsFloat2: further theorems about IEEE floats (C66 - C69) *)

From Coq Require Import List Arith ZArith Reals Bool Lra Lia.
From Flocq Require Import Core IEEE754.BinarySingleNaN.
From Verif Require Import Base Scalar Vec Mat2 Mat3 Mat4 Mat5 Mat6 Slices MatLoops MatOps Quat DualQuat RingDet Spec Entries InstZ InstR RFacts InstF FloatFacts ProofsFloat ProofsQuat ProofsRigid ProofsBasic LoopFacts ProofsLoops QRFacts ProofsQR ProofsPanic.
Open Scope sc_scope.

Section F.
Context {prec emax : Z} {Hp : Prec_gt_0 prec} {He : Prec_lt_emax prec emax}.
Notation fl := (binary_float prec emax).
Notation fe := (FLT_exp (3 - emax - prec) prec).

(** ** exact operations *)

Lemma lt_emax (x : fl) : Rlt_bool (Rabs (B2R x)) (bpow radix2 emax) = true.
Proof. apply Rlt_bool_true, abs_B2R_lt_emax. Qed.

Lemma round_B2R (x : fl) : round radix2 (SpecFloat.fexp prec emax) (round_mode mode_NE) (B2R x) = B2R x.
Proof. rewrite fe_eq. apply round_generic; [apply valid_rnd_N|apply format_B2R]. Qed.

Lemma mult_one (x : fl) : Bmult mode_NE x Bone = x.
Proof.
  destruct (is_finite x) eqn:F.
  - pose proof (Bmult_correct prec emax Hp He mode_NE x Bone) as C.
    rewrite Bone_correct, Rmult_1_r, round_B2R, lt_emax, F, is_finite_Bone in C.
    destruct C as (C1 & C2 & C3). cbn [andb] in C2. apply B2R_Bsign_inj; auto.
    rewrite C3 by (destruct (Bmult mode_NE x Bone); [reflexivity..|discriminate C2|reflexivity]).
    rewrite Bsign_Bone. apply xorb_false_r.
  - pose proof (is_finite_strict_Bone prec emax Hp He) as S. pose proof (Bsign_Bone prec emax Hp He) as B.
    destruct (Bone : fl) as [s|s| |s m e H]; try discriminate S. cbn in B. subst s.
    destruct x as [s|s| |s m' e' H']; try discriminate F; [ |reflexivity].
    cbn. rewrite xorb_false_r. reflexivity.
Qed.

Lemma div_one (x : fl) : Bdiv mode_NE x Bone = x.
Proof.
  destruct (is_finite x) eqn:F.
  - pose proof (Bdiv_correct prec emax Hp He mode_NE x Bone) as C.
    rewrite Bone_correct in C. specialize (C R1_neq_R0). unfold Rdiv in C.
    rewrite Rinv_1, Rmult_1_r, round_B2R, lt_emax, F in C.
    destruct C as (C1 & C2 & C3). apply B2R_Bsign_inj; auto.
    rewrite C3 by (destruct (Bdiv mode_NE x Bone); [reflexivity..|discriminate C2|reflexivity]).
    rewrite Bsign_Bone. apply xorb_false_r.
  - pose proof (is_finite_strict_Bone prec emax Hp He) as S. pose proof (Bsign_Bone prec emax Hp He) as B.
    destruct (Bone : fl) as [s|s| |s m e H]; try discriminate S. cbn in B. subst s.
    destruct x as [s|s| |s m' e' H']; try discriminate F; [ |reflexivity].
    cbn. rewrite xorb_false_r. reflexivity.
Qed.

(** ** C66: neutral elements *)

Lemma c66_scale_one : forall d (A : mat fl (dimn d)) (v : arr fl (dimn d)),
  d_scale d A one = A /\ d_vscale d v one = v /\ d_div d A one = A /\ d_vdiv d v one = v.
Proof.
  intros d A v. repeat split; (apply mfun_ext; intros i j Hi Hj) || (apply vfun_ext; intros i Hi).
  - rewrite d_scale_entry by assumption. apply mult_one.
  - rewrite d_vscale_entry by assumption. apply mult_one.
  - rewrite d_div_entry by assumption. apply div_one.
  - rewrite d_vdiv_entry by assumption. apply div_one.
Qed.

(** [x] is finite with value [r] *)
Definition is_val (x : fl) (r : R) : Prop := is_finite x = true /\ B2R x = r.

Lemma plus_val (x y z : fl) a b : is_val x a -> is_val y b -> B2R z = (a + b)%R -> is_val (Bplus mode_NE x y) (a + b).
Proof.
  intros [Fx Vx] [Fy Vy] E. pose proof (Bplus_correct prec emax Hp He mode_NE x y Fx Fy) as C.
  rewrite Vx, Vy, <- E, round_B2R, lt_emax in C. destruct C as (C1 & C2 & _). split; [exact C2|rewrite C1; exact E].
Qed.

Lemma mult_val (x y z : fl) a b : is_val x a -> is_val y b -> B2R z = (a * b)%R -> is_val (Bmult mode_NE x y) (a * b).
Proof.
  intros [Fx Vx] [Fy Vy] E. pose proof (Bmult_correct prec emax Hp He mode_NE x y) as C.
  rewrite Vx, Vy, <- E, round_B2R, lt_emax, Fx, Fy in C. destruct C as (C1 & C2 & _). split; [exact C2|rewrite C1; exact E].
Qed.

Lemma dotl_delta n (f g : nat -> fl) p : 0 < n -> (forall k, k < n -> is_finite (f k) = true) ->
  (forall k, k < n -> is_val (g k) (if Nat.eqb k p then 1 else 0)%R) ->
  is_val (dotl n f g) (if Nat.ltb p n then B2R (f p) else 0)%R.
Proof.
  intros Hn Ff Vg.
  assert (T : forall k, k < n -> is_val (Bmult mode_NE (f k) (g k)) (if Nat.eqb k p then B2R (f k) else 0)%R).
  { intros k Hk. pose proof (Vg k Hk) as V. destruct (Nat.eqb k p).
    - rewrite <- (Rmult_1_r (B2R (f k))). apply mult_val with (f k); [split; auto|exact V|ring].
    - rewrite <- (Rmult_0_r (B2R (f k))). apply mult_val with (B754_zero false); [split; auto|exact V|cbn; ring]. }
  clear Ff Vg. induction n as [ |n IH]; [lia| ]. destruct n as [ |n].
  - cbn [dotl]. specialize (T 0 ltac:(lia)). destruct p; exact T.
  - rewrite dotl_S by lia. assert (I := IH ltac:(lia) (fun k Hk => T k ltac:(lia))). clear IH.
    specialize (T (S n) ltac:(lia)). cbn [add mul F_Num].
    destruct (Nat.ltb_spec p (S n)) as [L|L].
    + destruct (Nat.eqb_spec (S n) p) as [X|X]; [lia| ].
      destruct (Nat.ltb_spec p (S (S n))) as [L'|L']; [ |lia].
      rewrite <- (Rplus_0_r (B2R (f p))). apply plus_val with (f p); [exact I|exact T|ring].
    + destruct (Nat.eqb_spec (S n) p) as [X|X].
      * subst p. destruct (Nat.ltb_spec (S n) (S (S n))) as [L'|L']; [ |lia].
        rewrite <- (Rplus_0_l (B2R (f (S n)))). apply plus_val with (f (S n)); [exact I|exact T|ring].
      * destruct (Nat.ltb_spec p (S (S n))) as [L'|L']; [lia| ].
        rewrite <- (Rplus_0_l 0%R). apply plus_val with (B754_zero false); [exact I|exact T|cbn; ring].
Qed.

Lemma dotl_comm n (f g : nat -> fl) : dotl n f g = dotl n g f.
Proof.
  induction n as [ |n IH]; [reflexivity| ].
  destruct n; [apply Bmult_comm| ]. rewrite !(dotl_S (S n)) by lia. rewrite IH. cbn [mul add F_Num]. f_equal. apply Bmult_comm.
Qed.

Lemma identity_val d i j : i < dimn d -> j < dimn d -> is_val (mfun (d_identity d) i j) (if Nat.eqb i j then 1 else 0)%R.
Proof.
  intros Hi Hj. rewrite d_identity_entry by assumption. unfold delta. destruct (Nat.eqb i j).
  - split; [apply is_finite_Bone|apply Bone_correct].
  - split; reflexivity.
Qed.

Lemma ord_inv d i p : p < dimn d -> exists k, k < dimn d /\ ord d i k = p /\ forall l, l < dimn d -> Nat.eqb (ord d i l) p = Nat.eqb l k.
Proof.
  intros Hp'. destruct d; try (exists p; cbn [ord]; solve [auto]). unfold ord. destruct (Nat.eqb i 2); [ |exists p; auto].
  cbn [dimn] in *. all_lt p Hp'; [exists 3|exists 0|exists 1|exists 2]; (split; [lia|split; [reflexivity| ]]);
    intros l Hl; all_lt l Hl; reflexivity.
Qed.

(** the value of every entry survives, and with it every bit of a non-zero one *)
Lemma c66_mul_identity : forall d (A : mat fl (dimn d)),
  (forall i j, i < dimn d -> j < dimn d -> is_finite (mfun A i j) = true) ->
  forall i j, i < dimn d -> j < dimn d ->
  is_val (mfun (d_mul d A (d_identity d)) i j) (B2R (mfun A i j))
  /\ is_val (mfun (d_mul d (d_identity d) A) i j) (B2R (mfun A i j)).
Proof.
  intros d A F i j Hi Hj. assert (D : 0 < dimn d) by (destruct d; cbn; lia).
  assert (O : forall k, k < dimn d -> ord d i k < dimn d).
  { intros k Hk. destruct d; cbn [ord]; try exact Hk. destruct (Nat.eqb i 2); [ |exact Hk]. cbn [dimn]. apply Nat.mod_upper_bound. lia. }
  split.
  - rewrite d_mul_dotl by assumption. destruct (ord_inv d i j Hj) as (p & Lp & Op & E).
    pose proof (dotl_delta (dimn d) (fun k => mfun A i (ord d i k)) (fun k => mfun (d_identity d) (ord d i k) j) p D) as X.
    cbv beta in X. rewrite Op in X. destruct (Nat.ltb_spec p (dimn d)) as [_|L]; [ |lia]. apply X.
    + intros k Hk. apply F; auto.
    + intros k Hk. rewrite <- (E k Hk). apply identity_val; auto.
  - rewrite d_mul_dotl by assumption. destruct (ord_inv d i i Hi) as (p & Lp & Op & E).
    pose proof (dotl_delta (dimn d) (fun k => mfun A (ord d i k) j) (fun k => mfun (d_identity d) i (ord d i k)) p D) as X.
    cbv beta in X. rewrite Op in X. destruct (Nat.ltb_spec p (dimn d)) as [_|L]; [ |lia].
    replace (dotl (dimn d) (fun k => mfun (d_identity d) i (ord d i k)) (fun k => mfun A (ord d i k) j))
      with (dotl (dimn d) (fun k => mfun A (ord d i k) j) (fun k => mfun (d_identity d) i (ord d i k))).
    + apply X.
      * intros k Hk. apply F; auto.
      * intros k Hk. rewrite <- (E k Hk), Nat.eqb_sym. apply identity_val; auto.
    + apply dotl_comm.
Qed.

Lemma c66_mul_v_identity : forall d (v : arr fl (dimn d)),
  (forall i, i < dimn d -> is_finite (vfun v i) = true) -> forall i, i < dimn d ->
  is_val (vfun (d_mul_v d (d_identity d) v) i) (B2R (vfun v i)).
Proof.
  intros d v F i Hi. assert (D : 0 < dimn d) by (destruct d; cbn; lia). rewrite d_mul_v_dotl by assumption.
  pose proof (dotl_delta (dimn d) (vfun v) (fun k => mfun (d_identity d) i k) i D) as X.
  destruct (Nat.ltb_spec i (dimn d)) as [_|L]; [ |lia].
  replace (dotl (dimn d) (fun k => mfun (d_identity d) i k) (vfun v)) with (dotl (dimn d) (vfun v) (fun k => mfun (d_identity d) i k)).
  - apply X; [exact F| ]. intros k Hk. rewrite Nat.eqb_sym. apply identity_val; auto.
  - apply dotl_comm.
Qed.

(** equal values compare equal, and non-zero ones are the same float *)
Lemma c66_same_value : forall x y : fl, is_val x (B2R y) -> is_finite y = true ->
  Beqb x y = true /\ (B2R y <> 0%R -> x = y).
Proof.
  intros x y [Fx E] Fy. split.
  - rewrite Beqb_correct by assumption. rewrite E. apply Req_bool_true. reflexivity.
  - intros N. apply B2R_inj; auto.
    + destruct x; try discriminate Fx; [ |reflexivity]. cbn in E. congruence.
    + destruct y; try discriminate Fy; [ |reflexivity]. cbn in N. congruence.
Qed.

Lemma c66_zero : forall d (A : mat fl (dimn d)),
  (forall i j, i < dimn d -> j < dimn d -> is_finite (mfun A i j) = true) ->
  d_sub d A A = d_zeros d
  /\ forall i j, i < dimn d -> j < dimn d -> is_val (mfun (d_add d A (d_zeros d)) i j) (B2R (mfun A i j)).
Proof.
  intros d A F. split.
  - apply mfun_ext. intros i j Hi Hj. rewrite d_sub_entry, d_zeros_entry by assumption.
    cbn [sub zero F_Num]. generalize (F i j Hi Hj). generalize (mfun A i j). intros x Fx.
    pose proof (Bminus_correct prec emax Hp He mode_NE x x Fx Fx) as C.
    replace (B2R x - B2R x)%R with 0%R in C by ring. rewrite round_0 in C by apply valid_rnd_round_mode. rewrite Rabs_R0 in C.
    rewrite Rlt_bool_true in C by apply bpow_gt_0. destruct C as (C1 & C2 & C3).
    rewrite Rcompare_Eq in C3 by reflexivity. apply B2R_Bsign_inj; auto. rewrite C3. cbn. destruct (Bsign x); reflexivity.
  - intros i j Hi Hj. rewrite d_add_entry, d_zeros_entry by assumption. cbn [add zero F_Num].
    rewrite <- (Rplus_0_r (B2R (mfun A i j))). apply plus_val with (mfun A i j); [split; auto|split; reflexivity|ring].
Qed.

(** ** C67: the transpose of a product *)

Lemma c67_transpose_mul_partial : forall d (A B : mat fl (dimn d)), d <> D4 ->
  d_transpose d (d_mul d A B) = d_mul d (d_transpose d B) (d_transpose d A).
Proof.
  intros d A B N. apply mfun_ext. intros i j Hi Hj. rewrite d_transpose_entry, !d_mul_dotl by assumption.
  assert (O : forall i k, ord d i k = k) by (destruct d; try reflexivity; congruence).
  assert (S : forall n, n <= dimn d -> dotl n (fun k => mfun A j (ord d j k)) (fun k => mfun B (ord d j k) i)
    = dotl n (fun k => mfun (d_transpose d B) i (ord d i k)) (fun k => mfun (d_transpose d A) (ord d i k) j)).
  { assert (E : forall k, k < dimn d -> mul (mfun A j (ord d j k)) (mfun B (ord d j k) i)
       = mul (mfun (d_transpose d B) i (ord d i k)) (mfun (d_transpose d A) (ord d i k) j)).
    { intros k Hk. rewrite !O, !d_transpose_entry by assumption. apply Bmult_comm. }
    intros n. induction n as [ |n IH]; intros L; [reflexivity| ]. destruct n.
    - exact (E 0 ltac:(lia)).
    - rewrite !dotl_S by lia. rewrite IH, E by lia. reflexivity. }
  apply S. lia.
Qed.

(** size 4: every entry outside row 2 and column 2 *)
Lemma c67_transpose_mul4_partial : forall (A B : mat fl 4) i j, i < 4 -> j < 4 -> i <> 2 -> j <> 2 ->
  mfun (d_transpose D4 (d_mul D4 A B)) i j = mfun (d_mul D4 (d_transpose D4 B) (d_transpose D4 A)) i j.
Proof.
  intros A B i j Hi Hj Ni Nj. rewrite d_transpose_entry, !d_mul_dotl by assumption.
  assert (O : forall i k, i <> 2 -> ord D4 i k = k).
  { intros x k Nx. unfold ord. apply Nat.eqb_neq in Nx. rewrite Nx. reflexivity. }
  assert (E : forall k, k < 4 -> mul (mfun A j (ord D4 j k)) (mfun B (ord D4 j k) i)
     = mul (mfun (d_transpose D4 B) i (ord D4 i k)) (mfun (d_transpose D4 A) (ord D4 i k) j)).
  { intros k Hk. rewrite !O by assumption. pose proof (fun X => d_transpose_entry D4 X k) as Q.
    rewrite (d_transpose_entry D4 B), (d_transpose_entry D4 A) by assumption. apply Bmult_comm. }
  cbn [dimn]. rewrite !dotl_S by lia. rewrite !E by lia. cbn [dotl]. rewrite E by lia. reflexivity.
Qed.

(** ** C68: inverse() on floats *)
Context {O : FOracle fl}.

Lemma bind_nn {A B} (x : outcome A) (f : A -> outcome (option B)) :
  (forall a, f a <> Ok None) -> bind x f <> Ok None.
Proof. intros H. destruct x as [a| ]; cbn [bind]; [apply H|discriminate]. Qed.

Lemma inverse_some {T} {nT : Num T} {sT : Signed T} {oT : POrd T} {fT : Float T} d (A : mat T (dimn d)) :
  nearly_zero (d_det d A) = false -> d_inverse d A <> Ok None.
Proof.
  destruct d; cbn [d_inverse d_det dimn]; intros H;
    [unfold m22_inverse|unfold m33_inverse|unfold m44_inverse|unfold m55_inverse|unfold m66_inverse];
    rewrite H; cbn [negb]; cbv zeta; repeat (apply bind_nn; intros ?); discriminate.
Qed.

Lemma inverse_none_any {T} {nT : Num T} {sT : Signed T} {oT : POrd T} {fT : Float T} d (A : mat T (dimn d)) :
  nearly_zero (d_det d A) = true -> d_inverse d A = Ok None.
Proof.
  destruct d; cbn [d_inverse d_det dimn]; intros H;
    [unfold m22_inverse|unfold m33_inverse|unfold m44_inverse|unfold m55_inverse|unfold m66_inverse];
    rewrite H; reflexivity.
Qed.

Lemma epsilon_val : is_finite (epsilon : fl) = true /\ B2R (epsilon : fl) = bpow radix2 (1 - prec).
Proof.
  pose proof (Bldexp_correct prec emax Hp He mode_NE Bone (1 - prec)) as C.
  rewrite Bone_correct, Rmult_1_l in C.
  assert (P : (0 < prec)%Z) by exact Hp. assert (L : (prec < emax)%Z) by exact He.
  rewrite round_generic in C.
  2: apply valid_rnd_round_mode.
  2:{ rewrite fe_eq. apply generic_format_FLT_bpow; [exact Hp|lia]. }
  rewrite Rlt_bool_true in C.
  - destruct C as (C1 & C2 & _). rewrite is_finite_Bone in C2. split; [exact C2|exact C1].
  - rewrite Rabs_pos_eq by apply bpow_ge_0. apply bpow_lt. lia.
Qed.

(** [epsilon()] is [2^(1-prec)] *)
Lemma c68_epsilon : B2R (epsilon : fl) = bpow radix2 (1 - prec).
Proof. apply epsilon_val. Qed.

Lemma nearly_zero_float (x : fl) : nearly_zero x = Bltb (Babs x) (epsilon : fl).
Proof.
  rewrite c23_nearly_zero. destruct (Beqb x (B754_zero false)) eqn:E; [ |reflexivity]. cbn [orb].
  destruct x as [s|s| |s m e H]; try (destruct s); try discriminate E;
    (symmetry; destruct epsilon_val as [F V]; rewrite Bltb_correct by (reflexivity || exact F); rewrite V; cbn;
     apply Rlt_bool_true, bpow_gt_0).
Qed.

(** [None] exactly when the computed determinant is below [epsilon] *)
Lemma c68_inverse_none_iff : forall d (A : mat fl (dimn d)),
  d_inverse d A = Ok None <-> Bltb (Babs (d_det d A)) (epsilon : fl) = true.
Proof.
  intros d A. rewrite <- nearly_zero_float. split; [ |apply inverse_none_any].
  intros E. destruct (nearly_zero (d_det d A)) eqn:Z; [reflexivity| ]. destruct (inverse_some d A Z E).
Qed.

(** a NaN determinant passes the test *)
Lemma c68_inverse_nan : forall d (A : mat fl (dimn d)), d_det d A = B754_nan ->
  exists B, d_inverse d A = Ok (Some B).
Proof.
  intros d A E. destruct (c54_inverse d A) as [[B| ] H]; [exists B; exact H| ].
  apply c68_inverse_none_iff in H. rewrite E in H. discriminate.
Qed.

Lemma qr_some_any {T} {nT : Num T} {sT : Signed T} {oT : POrd T} {fT : Float T} d (A : mat T (dimn d)) :
  d_qr d A = Ok None <-> nearly_zero (d_det d A) = true.
Proof.
  rewrite d_qr_eq. destruct (nearly_zero (d_det d A)); cbn [negb]; [tauto| ]. split; [ |discriminate].
  intros E. exfalso. revert E. apply bind_nn. intros a. discriminate.
Qed.

Lemma c68_qr_none_iff : forall d (A : mat fl (dimn d)),
  d_qr d A = Ok None <-> Bltb (Babs (d_det d A)) (epsilon : fl) = true.
Proof. intros d A. rewrite <- nearly_zero_float. apply qr_some_any. Qed.

(** ** C69: comparisons of floats *)

(** a matrix equals itself exactly when it has no NaN; the comparison is symmetric *)
Lemma c69_eq_reflexive_iff : forall n (A : mat fl n),
  aeqb (aeqb eqb) A A = true <-> forall i j, i < n -> j < n -> is_nan (mfun A i j) = false.
Proof.
  intros n A. rewrite maeqb_spec. split; intros H i j Hi Hj; specialize (H i j Hi Hj); cbn [eqb F_Num] in *;
    destruct (mfun A i j) as [s|s| |s m e B] eqn:E; try reflexivity; try discriminate H; try (destruct s; reflexivity).
  rewrite Beqb_refl. reflexivity.
Qed.

Lemma c69_eq_symmetric : forall n (A B : mat fl n), aeqb (aeqb eqb) A B = aeqb (aeqb eqb) B A.
Proof.
  intros n A B. apply eq_true_iff_eq. rewrite !maeqb_spec.
  split; intros H i j Hi Hj; cbn [eqb F_Num]; rewrite Beqb_sym; apply H; assumption.
Qed.

(** [compare_dual_quaternions] compares the eight numbers and nothing else *)
Definition dqlist {T} {nT : Num T} (a : DualQuaternion T) : list T :=
  let '((w, x, y, z), (w', x', y', z')) := dqval a in w :: x :: y :: z :: w' :: x' :: y' :: z' :: nil.

End F.

Section Any.
Context {T : Type} {nT : Num T} {sT : Signed T} {oT : POrd T} {fT : Float T}.
Lemma c69_compare_iff : forall (a b : DualQuaternion T) e,
  compare_dual_quaternions a b e = true <-> Forall2 (fun x y => nearly_equal x y e = true) (dqlist a) (dqlist b).
Proof.
  intros [[w (x & y & z & []) n1] [w1 (x1 & y1 & z1 & []) n2] f] [[w' (x' & y' & z' & []) n1'] [w1' (x1' & y1' & z1' & []) n2'] f'] e.
  unfold dqlist, dqval, qval, vfun, compare_dual_quaternions. cbn. rewrite !andb_true_iff. split.
  - intros [[[[[[[A B] C] D] E] F] G] H]. repeat constructor; assumption.
  - intros H. repeat match goal with H : Forall2 _ (_ :: _) _ |- _ => inversion H; subst; clear H end. repeat split; assumption.
Qed.
End Any.

Section F.
Context {prec emax : Z} {Hp : Prec_gt_0 prec} {He : Prec_lt_emax prec emax}.
Notation fl := (binary_float prec emax).
Context {O : FOracle fl}.

Lemma c69_compare_symmetric : forall (a b : DualQuaternion fl) e,
  compare_dual_quaternions a b e = compare_dual_quaternions b a e.
Proof.
  assert (S : forall (a b : DualQuaternion fl) e, compare_dual_quaternions a b e = true -> compare_dual_quaternions b a e = true).
  { intros a b e. rewrite !c69_compare_iff. intros H. induction H; constructor; auto. rewrite c23_symmetric. assumption. }
  intros a b e. apply eq_true_iff_eq. split; apply S.
Qed.

Lemma c69_compare_reflexive_iff : forall (a : DualQuaternion fl) e,
  compare_dual_quaternions a a e = true <-> Forall (fun x => is_nan x = false) (dqlist a).
Proof.
  intros a e. rewrite c69_compare_iff. split; intros H.
  - remember (dqlist a) as l. clear Heql. revert H. induction l as [ |x l IH]; intros H; inversion H; subst; constructor; auto.
    rewrite c23_reflexive in *. destruct (is_nan x); auto; discriminate.
  - induction H; constructor; auto. rewrite c23_reflexive, H. reflexivity.
Qed.

End F.

(** ** Concrete cases (f64) *)
#[local] Instance prec53 : Prec_gt_0 53 := eq_refl.
#[local] Instance emax1024 : Prec_lt_emax 53 1024 := eq_refl.
#[local] Notation f64 := (binary_float 53 1024).
#[local] Notation "# n" := (fofZ n : f64) (at level 1).

(** size 4: the transpose of a product is not the product of the transposes;
    row 2 is summed in another order than the others *)
Lemma c67_transpose_mul4_refuted : exists (A B : mat f64 4),
  d_transpose D4 (d_mul D4 A B) <> d_mul D4 (d_transpose D4 B) (d_transpose D4 A).
Proof.
  set (z := #0). set (u := #1). set (h := fofZ (2 ^ 53) : f64).
  exists [| [| z; z; z; z |]; [| z; z; z; z |]; [| h; u; u; z |]; [| z; z; z; z |] |],
         [| [| u; z; z; z |]; [| u; z; z; z |]; [| u; z; z; z |]; [| z; z; z; z |] |].
  intros E. apply (f_equal (fun m => B2SF (mfun m 0 2))) in E. vm_compute in E. discriminate E.
Qed.

Example C66_case : let A := [| [| #3; fofZ (2 ^ 60) |]; [| #(-7); #0 |] |] : mat f64 2 in
  (forall i j, i < 2 -> j < 2 -> is_finite (mfun A i j) = true)
  /\ B2SF (mfun (d_mul D2 A (d_identity D2)) 0 1) = B2SF (fofZ (2 ^ 60) : f64).
Proof. split; [intros i j Hi Hj; all_lt i Hi; all_lt j Hj; reflexivity|vm_compute; reflexivity]. Qed.

Example C67_case : let A := [| [| #3; fofZ (2 ^ 60) |]; [| #(-7); #1 |] |] : mat f64 2 in
  d_transpose D2 (d_mul D2 A A) = d_mul D2 (d_transpose D2 A) (d_transpose D2 A).
Proof. intros A. apply c67_transpose_mul_partial. discriminate. Qed.

Example C68_case : forall O : FOracle f64,
  d_inverse D2 [| [| #1; #2 |]; [| #2; #4 |] |] = Ok None
  /\ d_inverse D2 [| [| #1; #2 |]; [| #3; #4 |] |] <> Ok None
  /\ exists B, d_inverse D2 [| [| #1; B754_nan |]; [| #3; #4 |] |] = Ok (Some B).
Proof.
  intros O. split; [ |split].
  - apply c68_inverse_none_iff. vm_compute. reflexivity.
  - intros E. apply c68_inverse_none_iff in E. vm_compute in E. discriminate.
  - apply c68_inverse_nan. vm_compute. reflexivity.
Qed.

Example C69_case : aeqb (aeqb eqb) ([| [| #1; B754_nan |]; [| #3; #4 |] |] : mat f64 2) [| [| #1; B754_nan |]; [| #3; #4 |] |] = false
  /\ aeqb (aeqb eqb) ([| [| #1; #0 |]; [| #3; #4 |] |] : mat f64 2) [| [| #1; B754_zero true |]; [| #3; #4 |] |] = true.
Proof. vm_compute. auto. Qed.
