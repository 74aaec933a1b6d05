(** * ProofsFloatErr: rounding errors of determinants, cross products, quaternion products
    and rotations (C80) *)

From Coq Require Import List Arith ZArith Reals Bool Lra Lia.
From Flocq Require Import Core Relative IEEE754.BinarySingleNaN.
From Verif Require Import Base Scalar Vec Mat2 Mat3 Mat4 Mat5 Mat6 Slices MatLoops MatOps Quat RingDet Spec Entries DetEntries RelFacts InstZ InstR RFacts ProofsRing ProofsQuat InstF FloatFacts ProofsFloat ProofsPanic ProofsFloat2.
Local Open Scope R_scope.

(** the permanent of the absolute values: the determinant with every sign made positive *)
Fixpoint lperm (n : nat) (M : nat -> nat -> R) : R :=
  match n with
  | O => 1
  | S k => sumn (S k) (fun j => Rabs (M 0%nat j) * lperm k (minor 0 j M))
  end.

(** [x] is an integer multiple of [2^q] *)
Definition grid (q : Z) (x : R) : Prop := exists k, x = IZR k * bpow radix2 q.

(** number of roundings on the longest path of the [det] of each size *)
Definition det_depth (d : dim) : nat :=
  match d with D2 => 2 | D3 => 5 | D4 => 26 | D5 => 123 | D6 => 724 end.

(** bounds: magnitude, number of roundings, degree *)
Definition bdg : Type := (R * nat * nat)%type.
Definition bdg_Num : Num bdg := {|
  zero := (0, 0%nat, 0%nat); one := (1, 0%nat, 0%nat);
  add := fun '(b, d, g) '(b', d', g') => (b + b', S (Nat.max d d'), Nat.max g g');
  sub := fun '(b, d, g) '(b', d', g') => (b + b', S (Nat.max d d'), Nat.max g g');
  mul := fun '(b, d, g) '(b', d', g') => (b * b', S (d + d'), (g + g')%nat);
  div := fun a b => a; eqb := fun a b => true
|}.
#[local] Existing Instance bdg_Num.

Lemma grid_weaken q q' x : (q' <= q)%Z -> grid q x -> grid q' x.
Proof.
  intros L [k ->]. exists (k * 2 ^ (q - q'))%Z. rewrite mult_IZR, Rmult_assoc. f_equal.
  rewrite (IZR_Zpower radix2) by lia. rewrite <- bpow_plus. f_equal. ring.
Qed.
Lemma grid_plus q x y : grid q x -> grid q y -> grid q (x + y).
Proof. intros [k ->] [l ->]. exists (k + l)%Z. rewrite plus_IZR. ring. Qed.
Lemma grid_minus q x y : grid q x -> grid q y -> grid q (x - y).
Proof. intros [k ->] [l ->]. exists (k - l)%Z. rewrite minus_IZR. ring. Qed.
Lemma grid_mult q q' x y : grid q x -> grid q' y -> grid (q + q') (x * y).
Proof. intros [k ->] [l ->]. exists (k * l)%Z. rewrite mult_IZR, bpow_plus. ring. Qed.

Section F.
Context {prec emax : Z} {Hp : Prec_gt_0 prec} {He : Prec_lt_emax prec emax}.
Notation fl := (binary_float prec emax).
Notation emin := (3 - emax - prec)%Z.
Notation fe := (FLT_exp emin prec).
Notation rnd := (round radix2 fe ZnearestE).
Notation uro := (uro (prec := prec)).

Lemma grid_format e x : (emin <= e)%Z -> (cexp radix2 fe x < e)%Z -> grid e x -> rnd x = x.
Proof.
  intros L C G. apply round_generic; [apply valid_rnd_N| ].
  destruct (grid_weaken e (cexp radix2 fe x) x ltac:(lia) G) as [k E].
  apply (generic_format_F2R' _ _ x (Defs.Float radix2 k (cexp radix2 fe x))).
  - unfold F2R. cbn. symmetry. exact E.
  - intros _. cbn. lia.
Qed.

Lemma grid_rnd e x : (emin <= e)%Z -> grid e x -> grid e (rnd x).
Proof.
  intros L G. destruct (Z_lt_le_dec (cexp radix2 fe x) e) as [C|C].
  - rewrite (grid_format e x L C G). exact G.
  - apply (grid_weaken (cexp radix2 fe x) e _ C). unfold round, F2R. cbn. eexists. reflexivity.
Qed.

(** no underflow error on the grid *)
Lemma grid_error e x : (emin <= e)%Z -> grid e x -> Rabs (rnd x - x) <= uro * Rabs x.
Proof.
  intros L G. pose proof (uro_pos (prec := prec)) as U.
  destruct (Rle_lt_dec (bpow radix2 (emin + prec - 1)) (Rabs x)) as [B|B].
  - pose proof (relative_error_N_FLT radix2 emin prec Hp (fun z => negb (Z.even z)) x B) as E.
    unfold FloatFacts.uro. replace (1 - prec)%Z with (- prec + 1)%Z by ring. exact E.
  - destruct (Req_dec x 0) as [->|N].
    { rewrite round_0 by apply valid_rnd_N. rewrite Rminus_0_r, Rabs_R0. lra. }
    rewrite (round_generic radix2 fe ZnearestE x).
    { unfold Rminus. rewrite Rplus_opp_r, Rabs_R0. apply Rmult_le_pos; [lra|apply Rabs_pos]. }
    destruct (grid_weaken e emin x L G) as [k E].
    apply (generic_format_F2R' _ _ x (Defs.Float radix2 k emin)).
    + unfold F2R. cbn. symmetry. exact E.
    + intros _. change (Fexp (Defs.Float radix2 k emin)) with emin. unfold cexp, FLT_exp. apply Z.max_lub; [ |lia].
      pose proof (mag_le_bpow radix2 x (emin + prec - 1) N B). lia.
Qed.

(** a computed number, the exact number, and the bound *)
Definition rerr (q : Z) (n : nat) (x : fl) (r : R) (t : bdg) : Prop :=
  let '(b, d, g) := t in (g <= n)%nat -> is_finite x = true ->
  Rabs r <= b /\ Rabs (B2R x - r) <= ((1 + uro) ^ d - 1) * b /\ grid (q * Z.of_nat g) (B2R x).

Section Grid.
Variables (q : Z) (n : nat).
Hypothesis Hq : (q <= 0)%Z.
Hypothesis Hn : (emin <= q * Z.of_nat n)%Z.

Lemma q_emin g : (g <= n)%nat -> (emin <= q * Z.of_nat g)%Z.
Proof. nia. Qed.

Lemma pow_mono d d' : (d <= d')%nat -> 1 <= (1 + uro) ^ d <= (1 + uro) ^ d'.
Proof.
  pose proof (uro_pos (prec := prec)). intros L. split; [apply pow_R1_Rle; lra|apply Rle_pow; [lra|exact L]].
Qed.

Lemma sum_step z z' r r' b b' P (y : R) : 1 <= P -> Rabs r <= b -> Rabs r' <= b' ->
  Rabs (z - r) <= (P - 1) * b -> Rabs (z' - r') <= (P - 1) * b' ->
  Rabs (y - (z + z')) <= uro * Rabs (z + z') ->
  Rabs (y - (r + r')) <= ((1 + uro) * P - 1) * (b + b').
Proof.
  intros HP A A' E E' Y. pose proof (uro_pos (prec := prec)) as U.
  replace (y - (r + r')) with ((y - (z + z')) + ((z - r) + (z' - r'))) by ring.
  assert (Z : Rabs (z + z') <= P * (b + b')).
  { replace (z + z') with ((z - r) + (z' - r') + (r + r')) by ring.
    eapply Rle_trans; [apply Rabs_triang| ].
    pose proof (Rabs_triang (z - r) (z' - r')). pose proof (Rabs_triang r r'). lra. }
  eapply Rle_trans; [apply Rabs_triang| ].
  pose proof (Rabs_triang (z - r) (z' - r')).
  assert (uro * Rabs (z + z') <= uro * (P * (b + b'))) by (apply Rmult_le_compat_l; lra). lra.
Qed.

Lemma rerr_le d d' b r (x : R) : (d <= d')%nat -> 0 <= b ->
  Rabs (x - r) <= ((1 + uro) ^ d - 1) * b -> Rabs (x - r) <= ((1 + uro) ^ d' - 1) * b.
Proof.
  intros L B E. eapply Rle_trans; [exact E| ]. apply Rmult_le_compat_r; [exact B| ].
  pose proof (pow_mono d d' L). lra.
Qed.

Lemma rerr_add (x x' : fl) r r' t t' : rerr q n x r t -> rerr q n x' r' t' ->
  rerr q n (add x x') (add r r') (add t t').
Proof.
  destruct t as ((b&d)&g), t' as ((b'&d')&g'). cbn [add bdg_Num F_Num R_Num rerr]. intros A A' G F.
  destruct (plus_finite x x' F) as (F1 & F2 & E).
  destruct (A ltac:(lia) F1) as (B & C & D), (A' ltac:(lia) F2) as (B' & C' & D').
  pose proof (Rabs_pos r). pose proof (Rabs_pos r').
  assert (GG : grid (q * Z.of_nat (Nat.max g g')) (B2R x + B2R x')).
  { apply grid_plus; (eapply grid_weaken; [ |eassumption]); nia. }
  pose proof (q_emin _ G) as Q. split; [ |split].
  - pose proof (Rabs_triang r r'). lra.
  - change ((1 + uro) ^ S (Nat.max d d')) with ((1 + uro) * (1 + uro) ^ Nat.max d d').
    apply (sum_step (B2R x) (B2R x')); try assumption.
    + apply (pow_mono 0). lia.
    + apply (rerr_le d); [lia|lra|exact C].
    + apply (rerr_le d'); [lia|lra|exact C'].
    + rewrite E. apply (grid_error _ _ Q GG).
  - rewrite E. apply grid_rnd; assumption.
Qed.

Lemma minus_finite (x y : fl) : is_finite (Bminus mode_NE x y) = true ->
  is_finite x = true /\ is_finite y = true /\ B2R (Bminus mode_NE x y) = rnd (B2R x - B2R y).
Proof.
  rewrite Bminus_plus. intros F. destruct (plus_finite _ _ F) as (F1 & F2 & E).
  rewrite is_finite_Bopp in F2. rewrite B2R_Bopp in E. auto.
Qed.

Lemma rerr_sub (x x' : fl) r r' t t' : rerr q n x r t -> rerr q n x' r' t' ->
  rerr q n (sub x x') (sub r r') (sub t t').
Proof.
  destruct t as ((b&d)&g), t' as ((b'&d')&g'). cbn [sub bdg_Num F_Num R_Num rerr]. intros A A' G F.
  destruct (minus_finite x x' F) as (F1 & F2 & E).
  destruct (A ltac:(lia) F1) as (B & C & D), (A' ltac:(lia) F2) as (B' & C' & D').
  pose proof (Rabs_pos r). pose proof (Rabs_pos r').
  assert (GG : grid (q * Z.of_nat (Nat.max g g')) (B2R x - B2R x')).
  { apply grid_minus; (eapply grid_weaken; [ |eassumption]); nia. }
  pose proof (q_emin _ G) as Q. split; [ |split].
  - pose proof (Rabs_triang r (- r')) as T. rewrite Rabs_Ropp in T. unfold Rminus. lra.
  - change ((1 + uro) ^ S (Nat.max d d')) with ((1 + uro) * (1 + uro) ^ Nat.max d d').
    apply (sum_step (B2R x) (- B2R x')); try assumption.
    + apply (pow_mono 0). lia.
    + rewrite Rabs_Ropp. exact B'.
    + apply (rerr_le d); [lia|lra|exact C].
    + replace (- B2R x' - - r') with (- (B2R x' - r')) by ring. rewrite Rabs_Ropp.
      apply (rerr_le d'); [lia|lra|exact C'].
    + rewrite E. apply (grid_error _ _ Q GG).
  - rewrite E. apply grid_rnd; assumption.
Qed.

Lemma rerr_mul (x x' : fl) r r' t t' : rerr q n x r t -> rerr q n x' r' t' ->
  rerr q n (mul x x') (mul r r') (mul t t').
Proof.
  destruct t as ((b&d)&g), t' as ((b'&d')&g'). cbn [mul bdg_Num F_Num R_Num rerr]. intros A A' G F.
  destruct (mult_finite x x' F) as (F1 & F2 & E).
  destruct (A ltac:(lia) F1) as (B & C & D), (A' ltac:(lia) F2) as (B' & C' & D').
  pose proof (Rabs_pos r) as P. pose proof (Rabs_pos r') as P'.
  assert (GG : grid (q * Z.of_nat (g + g')) (B2R x * B2R x')).
  { replace (q * Z.of_nat (g + g'))%Z with (q * Z.of_nat g + q * Z.of_nat g')%Z by lia. apply grid_mult; assumption. }
  pose proof (q_emin _ G) as Q. pose proof (uro_pos (prec := prec)) as U. split; [ |split].
  - rewrite Rabs_mult. apply Rmult_le_compat; assumption.
  - change ((1 + uro) ^ S (d + d')) with ((1 + uro) * (1 + uro) ^ (d + d')). rewrite pow_add.
    rewrite E. pose proof (grid_error _ _ Q GG) as R.
    pose proof (pow_mono 0 d ltac:(lia)) as [_ L]. pose proof (pow_mono 0 d' ltac:(lia)) as [_ L'].
    rewrite pow_O in L, L'. set (p := (1 + uro) ^ d) in *. set (p' := (1 + uro) ^ d') in *.
    set (y := rnd (B2R x * B2R x')) in *. clearbody y p p'. set (z := B2R x) in *. set (z' := B2R x') in *.
    clearbody z z'. clear E F F1 F2 A A'.
    assert (X : Rabs (z * z' - r * r') <= (p * p' - 1) * (b * b')).
    { replace (z * z' - r * r') with ((z - r) * r' + r * (z' - r') + (z - r) * (z' - r')) by ring.
      eapply Rle_trans; [apply Rabs_triang| ]. eapply Rle_trans; [apply Rplus_le_compat_r, Rabs_triang| ].
      rewrite !Rabs_mult.
      assert (Rabs (z - r) * Rabs r' <= (p - 1) * b * b') by (apply Rmult_le_compat; try assumption; apply Rabs_pos).
      assert (Rabs r * Rabs (z' - r') <= b * ((p' - 1) * b')) by (apply Rmult_le_compat; try assumption; apply Rabs_pos).
      assert (Rabs (z - r) * Rabs (z' - r') <= (p - 1) * b * ((p' - 1) * b')) by (apply Rmult_le_compat; try assumption; apply Rabs_pos).
      lra. }
    assert (Y : Rabs (z * z') <= p * p' * (b * b')).
    { replace (z * z') with ((z * z' - r * r') + r * r') by ring. eapply Rle_trans; [apply Rabs_triang| ].
      assert (Rabs (r * r') <= b * b') by (rewrite Rabs_mult; apply Rmult_le_compat; assumption). lra. }
    replace (y - r * r') with ((y - z * z') + (z * z' - r * r')) by ring.
    eapply Rle_trans; [apply Rabs_triang| ].
    assert (uro * Rabs (z * z') <= uro * (p * p' * (b * b'))) by (apply Rmult_le_compat_l; lra). lra.
  - rewrite E. apply grid_rnd; assumption.
Qed.

Lemma rerr_leaf (x : fl) : grid q (B2R x) -> rerr q n x (B2R x) (Rabs (B2R x), 0%nat, 1%nat).
Proof.
  intros G _ _. split; [lra|split].
  - unfold Rminus. rewrite Rplus_opp_r, Rabs_R0. cbn. lra.
  - change (Z.of_nat 1) with 1%Z. rewrite Z.mul_1_r. exact G.
Qed.

Lemma rerr_one : rerr q n one 1 one.
Proof.
  intros _ _. change (one : fl) with (Bone : fl). rewrite Bone_correct, Rabs_R1. split; [lra|split].
  - unfold Rminus. rewrite Rplus_opp_r, Rabs_R0. cbn. lra.
  - exists 1%Z. rewrite Z.mul_0_r. cbn. ring.
Qed.

Lemma rel_row_leaf m (x : arr fl m) : (forall j, (j < m)%nat -> grid q (B2R (vfun x j))) ->
  rel_row (rerr q n) m x (amap B2R x) (amap (fun a => (Rabs (B2R a), 0%nat, 1%nat)) x).
Proof.
  induction m as [ |m IH]; intros H; [exact I| ]. split; [apply rerr_leaf; exact (H 0%nat ltac:(lia))| ].
  apply IH. intros j Hj. exact (H (S j) ltac:(lia)).
Qed.
Lemma rel_mat_leaf m k (x : arr (arr fl m) k) : (forall i j, (i < k)%nat -> (j < m)%nat -> grid q (B2R (mfun x i j))) ->
  rel_mat (rerr q n) m k x (amap (amap B2R) x) (amap (amap (fun a => (Rabs (B2R a), 0%nat, 1%nat))) x).
Proof.
  induction k as [ |k IH]; intros H; [exact I| ]. split.
  - apply rel_row_leaf. intros j Hj. exact (H 0%nat j ltac:(lia) Hj).
  - apply IH. intros i j Hi Hj. exact (H (S i) j ltac:(lia) Hj).
Qed.
End Grid.

Lemma bdg_det d (x : mat fl (dimn d)) :
  d_det d (amap (amap (fun a => (Rabs (B2R a), 0%nat, 1%nat) : bdg)) x)
  = (lperm (dimn d) (fun i j => B2R (mfun x i j)), det_depth d, dimn d).
Proof.
  destruct d; cbn in x; repeat match goal with H : (_ * _)%type |- _ => destruct H end;
  repeat match goal with H : unit |- _ => destruct H end.
  all: lazy [d_det m22_det m33_det m44_det m55_det m66_det ix0 ix1 ix2 ix3 ix4 ix5 ahd atl fst snd
     lperm sumn minor skip Nat.ltb Nat.leb mfun List.nth List.map alist amap dimn add sub mul zero one R_Num bdg_Num Nat.max Nat.add det_depth].
  all: apply f_equal2; [apply f_equal2| ]; try reflexivity; ring.
Qed.

Lemma vfun_amap {A B} {nA : Num A} {nB : Num B} (f : A -> B) n (v : arr A n) i : (i < n)%nat -> vfun (amap f v) i = f (vfun v i).
Proof.
  revert i. induction n as [ |n IH]; intros i Hi; [lia| ]. destruct i as [ |i]; [reflexivity| ].
  exact (IH (snd v) i ltac:(lia)).
Qed.
Lemma mfun_amap {A B} {nA : Num A} {nB : Num B} (f : A -> B) n m (v : arr (arr A n) m) i j : (i < m)%nat -> (j < n)%nat ->
  mfun (amap (amap f) v) i j = f (mfun v i j).
Proof.
  revert i. induction m as [ |m IH]; intros i Hi Hj; [lia| ]. destruct i as [ |i]; [ |exact (IH (snd v) i ltac:(lia) Hj)].
  exact (vfun_amap f n (fst v) j Hj).
Qed.

Lemma det_exact_ldet d (x : mat fl (dimn d)) :
  d_det d (amap (amap B2R) x) = ldet (dimn d) (fun i j => B2R (mfun x i j)).
Proof.
  rewrite (d_det_ldet R_ring). apply ldet_ext. intros i j Hi Hj. apply mfun_amap; assumption.
Qed.

(** the error of [det()]: no underflow when the entries are multiples of [2^q] with [2^(n q)] representable *)
Lemma c80_det_error : forall d (x : mat fl (dimn d)) q, (q <= 0)%Z -> (emin <= q * Z.of_nat (dimn d))%Z ->
  (forall i j, (i < dimn d)%nat -> (j < dimn d)%nat -> grid q (B2R (mfun x i j))) ->
  is_finite (d_det d x) = true ->
  let M := fun i j => B2R (mfun x i j) in
  Rabs (B2R (d_det d x) - ldet (dimn d) M) <= ((1 + uro) ^ det_depth d - 1) * lperm (dimn d) M.
Proof.
  intros d x q Hq Hn G F M.
  pose proof (rel_det (rerr q (dimn d)) (rerr_add q _ Hq Hn) (rerr_sub q _ Hq Hn) (rerr_mul q _ Hq Hn) d x _ _
    (rel_mat_leaf q (dimn d) _ _ x G)) as R.
  rewrite bdg_det, det_exact_ldet in R. exact (proj1 (proj2 (R (le_n _) F))).
Qed.

Lemma sumn_le n (f g : nat -> R) : (forall k, (k < n)%nat -> f k <= g k) -> sumn n f <= sumn n g.
Proof.
  induction n as [ |n IH]; intros H; cbn [sumn]; [apply Rle_refl| ]. apply Rplus_le_compat; [apply IH; intros; apply H; lia|apply H; lia].
Qed.
Lemma sumn_const n (c : R) : sumn n (fun _ => c) = INR n * c.
Proof. induction n as [ |n IH]; cbn [sumn]; [change (0 = 0 * c); ring| ]. rewrite IH, S_INR. change (INR n * c + c = (INR n + 1) * c). ring. Qed.

Lemma lperm_max n M B : (forall i j, (i < n)%nat -> (j < n)%nat -> Rabs (M i j) <= B) ->
  0 <= lperm n M <= INR (fact n) * B ^ n.
Proof.
  revert M. induction n as [ |n IH]; intros M H; [cbn; lra| ].
  assert (S1 : forall j, (j < S n)%nat -> 0 <= lperm n (minor 0 j M) <= INR (fact n) * B ^ n).
  { intros j Hj. apply IH. intros a b Ha Hb. apply H; unfold skip; [ |destruct (Nat.ltb b j)]; cbn; lia. }
  cbn [lperm]. split.
  - apply Rle_trans with (sumn (S n) (fun _ => 0)); [rewrite sumn_const; lra| ].
    apply sumn_le. intros k Hk. apply Rmult_le_pos; [apply Rabs_pos|apply S1; exact Hk].
  - apply Rle_trans with (sumn (S n) (fun _ => B * (INR (fact n) * B ^ n))).
    + apply sumn_le. intros k Hk. apply Rmult_le_compat; [apply Rabs_pos|apply S1; exact Hk|apply H; lia|apply S1; exact Hk].
    + rewrite sumn_const. change (fact (S n)) with (S n * fact n)%nat. rewrite mult_INR. cbn [pow]. lra.
Qed.

(** the same with the largest entry *)
Lemma c80_det_error_max : forall d (x : mat fl (dimn d)) q B, (q <= 0)%Z -> (emin <= q * Z.of_nat (dimn d))%Z ->
  (forall i j, (i < dimn d)%nat -> (j < dimn d)%nat -> grid q (B2R (mfun x i j)) /\ Rabs (B2R (mfun x i j)) <= B) ->
  is_finite (d_det d x) = true ->
  Rabs (B2R (d_det d x) - ldet (dimn d) (fun i j => B2R (mfun x i j)))
  <= ((1 + uro) ^ det_depth d - 1) * (INR (fact (dimn d)) * B ^ dimn d).
Proof.
  intros d x q B Hq Hn H F. eapply Rle_trans; [apply (c80_det_error d x q Hq Hn); [intros; apply H; assumption|exact F]| ].
  apply Rmult_le_compat_l; [pose proof (pow_mono 0 (det_depth d) ltac:(lia)); lra| ].
  apply lperm_max. intros; apply H; assumption.
Qed.

(** the sign of a determinant larger than the error is right *)
Lemma c80_det_sign : forall d (x : mat fl (dimn d)) q, (q <= 0)%Z -> (emin <= q * Z.of_nat (dimn d))%Z ->
  (forall i j, (i < dimn d)%nat -> (j < dimn d)%nat -> grid q (B2R (mfun x i j))) ->
  is_finite (d_det d x) = true ->
  let M := fun i j => B2R (mfun x i j) in
  ((1 + uro) ^ det_depth d - 1) * lperm (dimn d) M < Rabs (ldet (dimn d) M) ->
  0 < B2R (d_det d x) * ldet (dimn d) M.
Proof.
  intros d x q Hq Hn G F M L. pose proof (c80_det_error d x q Hq Hn G F) as E. cbv zeta in E. fold M in E.
  set (y := B2R (d_det d x)) in *. set (z := ldet (dimn d) M) in *. 
  assert (A : Rabs (y - z) < Rabs z) by lra. clear - A. unfold Rabs in A. destruct (Rcase_abs (y - z)), (Rcase_abs z); nra.
Qed.

(** the singularity gate of [inverse()] against the exact determinant *)
Lemma c80_inverse_gate {O : FOracle fl} : forall d (x : mat fl (dimn d)) q, (q <= 0)%Z -> (emin <= q * Z.of_nat (dimn d))%Z ->
  (forall i j, (i < dimn d)%nat -> (j < dimn d)%nat -> grid q (B2R (mfun x i j))) ->
  is_finite (d_det d x) = true ->
  let M := fun i j => B2R (mfun x i j) in
  let E := ((1 + uro) ^ det_depth d - 1) * lperm (dimn d) M in
  (bpow radix2 (1 - prec) + E <= Rabs (ldet (dimn d) M) -> exists B, d_inverse d x = Ok (Some B))
  /\ (Rabs (ldet (dimn d) M) + E < bpow radix2 (1 - prec) -> d_inverse d x = Ok None).
Proof.
  intros d x q Hq Hn G F M E. pose proof (c80_det_error d x q Hq Hn G F) as A. cbv zeta in A. fold M in A. fold E in A.
  assert (N : Bltb (Babs (d_det d x)) (epsilon : fl) = Rlt_bool (Rabs (B2R (d_det d x))) (bpow radix2 (1 - prec))).
  { destruct epsilon_val as [Fe Ve]. rewrite Bltb_correct; [ |rewrite is_finite_Babs; exact F|exact Fe]. rewrite B2R_Babs, Ve. reflexivity. }
  set (y := B2R (d_det d x)) in *. set (z := ldet (dimn d) M) in *.
  pose proof (Rabs_triang_inv z y) as T1. pose proof (Rabs_triang_inv y z) as T2. rewrite (Rabs_minus_sym z y) in T1. split; intros L.
  - destruct (c54_inverse d x) as [[B| ] H]; [exists B; exact H| ]. exfalso.
    apply c68_inverse_none_iff in H. rewrite N in H. rewrite Rlt_bool_false in H; [discriminate|lra].
  - apply c68_inverse_none_iff. rewrite N. apply Rlt_bool_true. lra.
Qed.

(** ** no overflow *)
Section NoOverflow.
Variables (q : Z) (n : nat).
Hypothesis Hq : (q <= 0)%Z.
Hypothesis Hn : (emin <= q * Z.of_nat n)%Z.

Definition rfin (x : fl) (r : R) (t : bdg) : Prop :=
  rerr q n x r t /\ let '(b, d, g) := t in 1 <= b /\ ((g <= n)%nat -> (1 + uro) ^ d * b < bpow radix2 emax -> is_finite x = true).

Lemma rnd_small e z P b : (emin <= e)%Z -> grid e z -> Rabs z <= P * b ->
  (1 + uro) * P * b < bpow radix2 emax -> Rabs (rnd z) < bpow radix2 emax.
Proof.
  intros L G Z H. pose proof (uro_pos (prec := prec)) as U. pose proof (grid_error e z L G) as E.
  replace (rnd z) with ((rnd z - z) + z) by ring. pose proof (Rabs_triang (rnd z - z) z).
  assert ((1 + uro) * Rabs z <= (1 + uro) * (P * b)) by (apply Rmult_le_compat_l; lra). lra.
Qed.

Lemma value_bound (x : fl) r b d g : rerr q n x r (b, d, g) -> (g <= n)%nat -> is_finite x = true ->
  Rabs (B2R x) <= (1 + uro) ^ d * b /\ grid (q * Z.of_nat g) (B2R x).
Proof.
  intros H G F. destruct (H G F) as (A & E & D). split; [ |exact D].
  replace (B2R x) with ((B2R x - r) + r) by ring. pose proof (Rabs_triang (B2R x - r) r). lra.
Qed.

Lemma sum_lt b b' d d' : 1 <= b -> 1 <= b' -> (1 + uro) ^ S (Nat.max d d') * (b + b') < bpow radix2 emax ->
  (1 + uro) ^ d * b < bpow radix2 emax /\ (1 + uro) ^ d' * b' < bpow radix2 emax.
Proof.
  intros B B' L. pose proof (pow_mono d (S (Nat.max d d')) ltac:(lia)). pose proof (pow_mono d' (S (Nat.max d d')) ltac:(lia)).
  set (P := (1 + uro) ^ S (Nat.max d d')) in *.
  assert ((1 + uro) ^ d * b <= P * b) by (apply Rmult_le_compat_r; lra).
  assert ((1 + uro) ^ d' * b' <= P * b') by (apply Rmult_le_compat_r; lra).
  assert (0 <= P * b) by (apply Rmult_le_pos; lra). assert (0 <= P * b') by (apply Rmult_le_pos; lra).
  assert (0 < P) by lra. split; nra.
Qed.

Lemma max_bound b b' d d' z z' : 1 <= b -> 1 <= b' -> Rabs z <= (1 + uro) ^ d * b -> Rabs z' <= (1 + uro) ^ d' * b' ->
  Rabs (z + z') <= (1 + uro) ^ Nat.max d d' * (b + b').
Proof.
  intros B B' A A'. pose proof (pow_mono d (Nat.max d d') ltac:(lia)). pose proof (pow_mono d' (Nat.max d d') ltac:(lia)).
  set (P := (1 + uro) ^ Nat.max d d') in *. pose proof (Rabs_triang z z').
  assert ((1 + uro) ^ d * b <= P * b) by (apply Rmult_le_compat_r; lra).
  assert ((1 + uro) ^ d' * b' <= P * b') by (apply Rmult_le_compat_r; lra). lra.
Qed.

Lemma rfin_add (x x' : fl) r r' t t' : rfin x r t -> rfin x' r' t' -> rfin (add x x') (add r r') (add t t').
Proof.
  intros [E S] [E' S']. split; [exact (rerr_add q n Hq Hn _ _ _ _ _ _ E E')| ].
  destruct t as ((b&d)&g), t' as ((b'&d')&g'), S as [B S], S' as [B' S']. cbn [add bdg_Num F_Num].
  split; [lra| ]. intros G L. destruct (sum_lt b b' d d' B B' L) as [L1 L2].
  specialize (S ltac:(lia) L1). specialize (S' ltac:(lia) L2).
  destruct (value_bound _ _ _ _ _ E ltac:(lia) S) as [V W], (value_bound _ _ _ _ _ E' ltac:(lia) S') as [V' W'].
  pose proof (Bplus_correct prec emax Hp He mode_NE x x' S S') as C.
  rewrite Rlt_bool_true in C; [apply C| ].
  apply (rnd_small (q * Z.of_nat (Nat.max g g')) (B2R x + B2R x') ((1 + uro) ^ Nat.max d d') (b + b')).
  - apply (q_emin q n Hq Hn _ G).
  - apply grid_plus; (eapply grid_weaken; [ |eassumption]); nia.
  - apply max_bound; assumption.
  - exact L.
Qed.

Lemma rfin_sub (x x' : fl) r r' t t' : rfin x r t -> rfin x' r' t' -> rfin (sub x x') (sub r r') (sub t t').
Proof.
  intros [E S] [E' S']. split; [exact (rerr_sub q n Hq Hn _ _ _ _ _ _ E E')| ].
  destruct t as ((b&d)&g), t' as ((b'&d')&g'), S as [B S], S' as [B' S']. cbn [sub bdg_Num F_Num].
  split; [lra| ]. intros G L. destruct (sum_lt b b' d d' B B' L) as [L1 L2].
  specialize (S ltac:(lia) L1). specialize (S' ltac:(lia) L2).
  destruct (value_bound _ _ _ _ _ E ltac:(lia) S) as [V W], (value_bound _ _ _ _ _ E' ltac:(lia) S') as [V' W'].
  pose proof (Bminus_correct prec emax Hp He mode_NE x x' S S') as C.
  rewrite Rlt_bool_true in C; [apply C| ].
  apply (rnd_small (q * Z.of_nat (Nat.max g g')) (B2R x - B2R x') ((1 + uro) ^ Nat.max d d') (b + b')).
  - apply (q_emin q n Hq Hn _ G).
  - apply grid_minus; (eapply grid_weaken; [ |eassumption]); nia.
  - apply max_bound; try assumption. rewrite Rabs_Ropp. exact V'.
  - exact L.
Qed.

Lemma rfin_mul (x x' : fl) r r' t t' : rfin x r t -> rfin x' r' t' -> rfin (mul x x') (mul r r') (mul t t').
Proof.
  intros [E S] [E' S']. split; [exact (rerr_mul q n Hq Hn _ _ _ _ _ _ E E')| ].
  destruct t as ((b&d)&g), t' as ((b'&d')&g'), S as [B S], S' as [B' S']. cbn [mul bdg_Num F_Num].
  split; [nra| ]. intros G L.
  pose proof (pow_mono 0 d ltac:(lia)) as [_ P]. pose proof (pow_mono 0 d' ltac:(lia)) as [_ P']. rewrite pow_O in P, P'.
  pose proof (uro_pos (prec := prec)) as U.
  change ((1 + uro) ^ Datatypes.S (d + d')) with ((1 + uro) * (1 + uro) ^ (d + d')) in L. rewrite pow_add in L.
  assert (X : 1 <= (1 + uro) ^ d * b) by nra. assert (X' : 1 <= (1 + uro) ^ d' * b') by nra.
  assert (Y : (1 + uro) ^ d * b < bpow radix2 emax /\ (1 + uro) ^ d' * b' < bpow radix2 emax).
  { replace ((1 + uro) * ((1 + uro) ^ d * (1 + uro) ^ d') * (b * b')) with ((1 + uro) * ((1 + uro) ^ d * b * ((1 + uro) ^ d' * b'))) in L by ring.
    set (v := (1 + uro) ^ d * b) in *. set (v' := (1 + uro) ^ d' * b') in *. clearbody v v'.
    assert (v <= v * v') by nra. assert (v' <= v * v') by nra. assert (v * v' <= (1 + uro) * (v * v')) by nra. lra. }
  specialize (S ltac:(lia) (proj1 Y)). specialize (S' ltac:(lia) (proj2 Y)).
  destruct (value_bound _ _ _ _ _ E ltac:(lia) S) as [V W], (value_bound _ _ _ _ _ E' ltac:(lia) S') as [V' W'].
  pose proof (Bmult_correct prec emax Hp He mode_NE x x') as C.
  rewrite Rlt_bool_true in C; [destruct C as (_ & -> & _); rewrite S, S'; reflexivity| ].
  apply (rnd_small (q * Z.of_nat (g + g')) (B2R x * B2R x') ((1 + uro) ^ d * (1 + uro) ^ d') (b * b')).
  - apply (q_emin q n Hq Hn _ G).
  - replace (q * Z.of_nat (g + g'))%Z with (q * Z.of_nat g + q * Z.of_nat g')%Z by lia. apply grid_mult; assumption.
  - rewrite Rabs_mult. replace ((1 + uro) ^ d * (1 + uro) ^ d' * (b * b')) with ((1 + uro) ^ d * b * ((1 + uro) ^ d' * b')) by ring.
    apply Rmult_le_compat; try assumption; apply Rabs_pos.
  - lra.
Qed.

Lemma rfin_leaf (x : fl) B : 1 <= B -> is_finite x = true -> Rabs (B2R x) <= B -> grid q (B2R x) -> rfin x (B2R x) (B, 0%nat, 1%nat).
Proof.
  intros H F L G. split; [ |split; auto]. intros _ _. split; [exact L|split].
  - unfold Rminus. rewrite Rplus_opp_r, Rabs_R0. cbn. lra.
  - change (Z.of_nat 1) with 1%Z. rewrite Z.mul_1_r. exact G.
Qed.
Lemma rel_row_fin B m (x : arr fl m) : 1 <= B -> (forall j, (j < m)%nat -> is_finite (vfun x j) = true /\ grid q (B2R (vfun x j)) /\ Rabs (B2R (vfun x j)) <= B) ->
  rel_row rfin m x (amap B2R x) (amake m (B, 0%nat, 1%nat)).
Proof.
  intros HB. induction m as [ |m IH]; intros H; [exact I| ]. split.
  - destruct (H 0%nat ltac:(lia)) as (F & G & L). apply rfin_leaf; assumption.
  - apply IH. intros j Hj. exact (H (S j) ltac:(lia)).
Qed.
Lemma rel_mat_fin B m k (x : arr (arr fl m) k) : 1 <= B ->
  (forall i j, (i < k)%nat -> (j < m)%nat -> is_finite (mfun x i j) = true /\ grid q (B2R (mfun x i j)) /\ Rabs (B2R (mfun x i j)) <= B) ->
  rel_mat rfin m k x (amap (amap B2R) x) (amake k (amake m (B, 0%nat, 1%nat))).
Proof.
  intros HB. induction k as [ |k IH]; intros H; [exact I| ]. split.
  - apply rel_row_fin; [exact HB| ]. intros j Hj. exact (H 0%nat j ltac:(lia) Hj).
  - apply IH. intros i j Hi Hj. exact (H (S i) j ltac:(lia) Hj).
Qed.
End NoOverflow.

Lemma bdg_det_max d B : d_det d (amake _ (amake _ ((B, 0%nat, 1%nat) : bdg))) = (INR (fact (dimn d)) * B ^ dimn d, det_depth d, dimn d).
Proof.
  destruct d;
  lazy [d_det m22_det m33_det m44_det m55_det m66_det ix0 ix1 ix2 ix3 ix4 ix5 ahd atl fst snd
     amake dimn add sub mul bdg_Num Nat.max Nat.add det_depth]; (apply f_equal2; [apply f_equal2| ]; try reflexivity);
  rewrite INR_IZR_INZ.
  - change (Z.of_nat (fact 2)) with 2%Z. ring.
  - change (Z.of_nat (fact 3)) with 6%Z. ring.
  - change (Z.of_nat (fact 4)) with 24%Z. ring.
  - change (Z.of_nat (fact 5)) with 120%Z. ring.
  - replace (Z.of_nat (fact 6)) with 720%Z by (vm_compute; reflexivity). ring.
Qed.

(** no overflow for entries up to [B] when [n! B^n] with its rounding errors is representable *)
Lemma c80_det_finite : forall d (x : mat fl (dimn d)) q B, (q <= 0)%Z -> (emin <= q * Z.of_nat (dimn d))%Z -> 1 <= B ->
  (forall i j, (i < dimn d)%nat -> (j < dimn d)%nat ->
     is_finite (mfun x i j) = true /\ grid q (B2R (mfun x i j)) /\ Rabs (B2R (mfun x i j)) <= B) ->
  (1 + uro) ^ det_depth d * (INR (fact (dimn d)) * B ^ dimn d) < bpow radix2 emax ->
  is_finite (d_det d x) = true.
Proof.
  intros d x q B Hq Hn HB G L.
  pose proof (rel_det (rfin q (dimn d)) (rfin_add q _ Hq Hn) (rfin_sub q _ Hq Hn) (rfin_mul q _ Hq Hn) d x _ _
    (rel_mat_fin q (dimn d) B _ _ x HB G)) as [_ R].
  rewrite bdg_det_max in R. exact (proj2 R (le_n _) L).
Qed.

(** ** cross product *)
Lemma c80_cross_error : forall (a b : V3 fl) q, (q <= 0)%Z -> (emin <= q * 2)%Z ->
  (forall k, (k < 3)%nat -> grid q (B2R (vfun a k)) /\ grid q (B2R (vfun b k))) ->
  forall i, (i < 3)%nat -> is_finite (vfun (v3_cross a b) i) = true ->
  let j := Nat.modulo (i + 1) 3 in let k := Nat.modulo (i + 2) 3 in
  let A := fun i => B2R (vfun a i) in let B := fun i => B2R (vfun b i) in
  Rabs (B2R (vfun (v3_cross a b) i) - (A j * B k - A k * B j))
  <= ((1 + uro) ^ 2 - 1) * (Rabs (A j * B k) + Rabs (A k * B j)).
Proof.
  intros a b q Hq Hn G i Hi F j k A B.
  pose proof (G 0%nat ltac:(lia)) as [a0 b0]. pose proof (G 1%nat ltac:(lia)) as [a1 b1]. pose proof (G 2%nat ltac:(lia)) as [a2 b2].
  apply (rerr_leaf q 2) in a0, a1, a2, b0, b1, b2. rewrite !Rabs_mult.
  pose proof (rerr_sub q 2 Hq Hn) as S. pose proof (rerr_mul q 2 Hq Hn) as P.
  destruct i as [ |[ |[ |i]]]; [ | | |lia].
  - pose proof (S _ _ _ _ _ _ (P _ _ _ _ _ _ a1 b2) (P _ _ _ _ _ _ a2 b1)) as R. exact (proj1 (proj2 (R (le_n _) F))).
  - pose proof (S _ _ _ _ _ _ (P _ _ _ _ _ _ a2 b0) (P _ _ _ _ _ _ a0 b2)) as R. exact (proj1 (proj2 (R (le_n _) F))).
  - pose proof (S _ _ _ _ _ _ (P _ _ _ _ _ _ a0 b1) (P _ _ _ _ _ _ a1 b0)) as R. exact (proj1 (proj2 (R (le_n _) F))).
Qed.

(** ** quaternions *)
Lemma rerr_done q n (x : fl) r t b d g r' b' D : rerr q n x r t -> t = (b, d, g) -> (g <= n)%nat -> (d <= D)%nat ->
  r = r' -> b <= b' -> is_finite x = true -> Rabs (B2R x - r') <= ((1 + uro) ^ D - 1) * b'.
Proof.
  intros H -> G L <- B F. destruct (H G F) as (A & E & _).
  pose proof (Rabs_pos r). pose proof (pow_mono d D L).
  apply Rle_trans with (((1 + uro) ^ d - 1) * b'); [ |apply Rmult_le_compat_r; lra].
  eapply Rle_trans; [exact E|apply Rmult_le_compat_l; lra].
Qed.

(** the four components *)
Definition qcomp {T} {nT : Num T} (c : nat) (a : Quaternion T) : T :=
  match c with 0%nat => q0 a | S k => vfun (Quat.q a) k end.
(** the sum of the magnitudes of the four products that make up component [c] of a product *)
Definition hmag (A B : nat -> R) (c : nat) : R :=
  match c with
  | 0%nat => Rabs (A 0%nat * B 0%nat) + Rabs (A 1%nat * B 1%nat) + Rabs (A 2%nat * B 2%nat) + Rabs (A 3%nat * B 3%nat)
  | 1%nat => Rabs (A 0%nat * B 1%nat) + Rabs (A 1%nat * B 0%nat) + Rabs (A 2%nat * B 3%nat) + Rabs (A 3%nat * B 2%nat)
  | 2%nat => Rabs (A 0%nat * B 2%nat) + Rabs (A 1%nat * B 3%nat) + Rabs (A 2%nat * B 0%nat) + Rabs (A 3%nat * B 1%nat)
  | _ => Rabs (A 0%nat * B 3%nat) + Rabs (A 1%nat * B 2%nat) + Rabs (A 2%nat * B 1%nat) + Rabs (A 3%nat * B 0%nat)
  end.
Definition h4 (A : nat -> R) : R * R * R * R := (A 0%nat, A 1%nat, A 2%nat, A 3%nat).
Definition comp4 (c : nat) (z : R * R * R * R) : R :=
  let '(a, b, d, e) := z in match c with 0%nat => a | 1%nat => b | 2%nat => d | _ => e end.

Ltac rerr_go Hq Hn := lazymatch goal with
  | |- rerr _ _ (add _ _) _ _ => eapply (rerr_add _ _ Hq Hn); rerr_go Hq Hn
  | |- rerr _ _ (sub _ _) _ _ => eapply (rerr_sub _ _ Hq Hn); rerr_go Hq Hn
  | |- rerr _ _ (mul _ _) _ _ => eapply (rerr_mul _ _ Hq Hn); rerr_go Hq Hn
  | |- rerr _ _ one _ _ => eapply rerr_one
  | |- _ => eassumption
  end.
Ltac open_q F := lazy [q_mul q_mul_v q_to_rotation q_new v3_add v3_scale v3_cross v3_dot qcomp vfun mfun List.nth List.map alist ix0 ix1 ix2 ahd atl acons anil fst snd
  q0 Quat.q q_real q_imag] in F |- *.

Lemma c80_q_mul_error : forall (a b : Quaternion fl) q, (q <= 0)%Z -> (emin <= q * 2)%Z ->
  (forall k, (k < 4)%nat -> grid q (B2R (qcomp k a)) /\ grid q (B2R (qcomp k b))) ->
  forall c, (c < 4)%nat -> is_finite (qcomp c (q_mul a b)) = true ->
  let A := fun k => B2R (qcomp k a) in let B := fun k => B2R (qcomp k b) in
  Rabs (B2R (qcomp c (q_mul a b)) - comp4 c (hamilton (h4 A) (h4 B))) <= ((1 + uro) ^ 4 - 1) * hmag A B c.
Proof.
  intros a b q Hq Hn G c Hc F A B. change 2%Z with (Z.of_nat 2) in Hn.
  pose proof (G 0%nat ltac:(lia)) as [a0 b0]. pose proof (G 1%nat ltac:(lia)) as [a1 b1].
  pose proof (G 2%nat ltac:(lia)) as [a2 b2]. pose proof (G 3%nat ltac:(lia)) as [a3 b3].
  apply (rerr_leaf q 2) in a0, a1, a2, a3, b0, b1, b2, b3. clear G. subst A B.
  destruct a as [x0 (x1&x2&x3&[]) fa], b as [y0 (y1&y2&y3&[]) fb].
  lazy [qcomp vfun List.nth alist q0 Quat.q fst snd] in a0, a1, a2, a3, b0, b1, b2, b3.
  destruct c as [ |[ |[ |[ |c]]]]; [ | | | |lia]; open_q F;
    (eapply rerr_done; [rerr_go Hq Hn|reflexivity|..]);
    [ | | | |exact F| | | | |exact F| | | | |exact F| | | | |exact F];
    try (lazy; lia); lazy [hamilton h4 comp4 hmag add sub mul R_Num]; rewrite ?Rabs_mult; try ring; apply Req_le; ring.
Qed.

(** the rotation [q * v]: exact value [v + 2 w (u x v) + 2 u x (u x v)] for [q = (w, u)] *)
Definition crossR (a b : nat -> R) (i : nat) : R :=
  let j := Nat.modulo (i + 1) 3 in let k := Nat.modulo (i + 2) 3 in a j * b k - a k * b j.
Definition rotR (w : R) (u v : nat -> R) (i : nat) : R :=
  v i + 2 * w * crossR u v i + 2 * crossR u (crossR u v) i.
Definition mag3 (u : nat -> R) : R := Rabs (u 0%nat) + Rabs (u 1%nat) + Rabs (u 2%nat).

Lemma Rminus_le_0 a b : 0 <= b - a -> a <= b.
Proof. lra. Qed.
(** polynomials with positive coefficients *)
Ltac pos_poly := match goal with |- ?a <= ?b => apply Rminus_le_0; ring_simplify;
  repeat first [apply Rplus_le_le_0_compat|apply Rmult_le_pos|apply pow_le|assumption|lra] end.

Lemma c80_q_mul_v_error : forall (a : Quaternion fl) (v : V3 fl) q, (q <= 0)%Z -> (emin <= q * 3)%Z ->
  (forall k, (k < 4)%nat -> grid q (B2R (qcomp k a))) -> (forall k, (k < 3)%nat -> grid q (B2R (vfun v k))) ->
  forall i, (i < 3)%nat -> is_finite (vfun (q_mul_v a v) i) = true ->
  let w := B2R (q0 a) in let u := fun k => B2R (vfun (Quat.q a) k) in let V := fun k => B2R (vfun v k) in
  Rabs (B2R (vfun (q_mul_v a v) i) - rotR w u V i)
  <= ((1 + uro) ^ 7 - 1) * (mag3 V * (1 + 2 * (Rabs w + mag3 u) ^ 2)).
Proof.
  intros a v q Hq Hn G Gv i Hi F w u V. change 3%Z with (Z.of_nat 3) in Hn.
  pose proof (G 0%nat ltac:(lia)) as a0. pose proof (G 1%nat ltac:(lia)) as a1.
  pose proof (G 2%nat ltac:(lia)) as a2. pose proof (G 3%nat ltac:(lia)) as a3.
  pose proof (Gv 0%nat ltac:(lia)) as b0. pose proof (Gv 1%nat ltac:(lia)) as b1. pose proof (Gv 2%nat ltac:(lia)) as b2.
  apply (rerr_leaf q 3) in a0, a1, a2, a3, b0, b1, b2. clear G Gv. subst w u V.
  destruct a as [x0 (x1&x2&x3&[]) fa], v as (y1&y2&y3&[]).
  lazy [qcomp vfun List.nth alist q0 Quat.q fst snd] in a0, a1, a2, a3, b0, b1, b2.
  destruct i as [ |[ |[ |i]]]; [ | | |lia]; open_q F;
    (eapply rerr_done; [rerr_go Hq Hn|reflexivity|..]);
    [ | | | |exact F| | | | |exact F| | | | |exact F];
    try (lazy; lia); lazy [rotR crossR mag3 Nat.modulo Nat.divmod Nat.add Nat.sub fst snd add sub mul one R_Num]; try ring.
  all: generalize (Rabs_pos (B2R x0)), (Rabs_pos (B2R x1)), (Rabs_pos (B2R x2)), (Rabs_pos (B2R x3)),
     (Rabs_pos (B2R y1)), (Rabs_pos (B2R y2)), (Rabs_pos (B2R y3)).
  all: generalize (Rabs (B2R x0)), (Rabs (B2R x1)), (Rabs (B2R x2)), (Rabs (B2R x3)),
     (Rabs (B2R y1)), (Rabs (B2R y2)), (Rabs (B2R y3)). 
  all: intros; pos_poly.
Qed.

(** [to_rotation]: column [j] of the exact matrix is the vector part of [q e_j q^*] *)
Definition e4 (j : nat) : R * R * R * R :=
  match j with 0%nat => (0, 1, 0, 0) | 1%nat => (0, 0, 1, 0) | _ => (0, 0, 0, 1) end.
Definition h4conj (A : nat -> R) : R * R * R * R := (A 0%nat, - A 1%nat, - A 2%nat, - A 3%nat).

Lemma c80_to_rotation_error : forall (a : Quaternion fl) q, (q <= 0)%Z -> (emin <= q * 2)%Z ->
  (forall k, (k < 4)%nat -> grid q (B2R (qcomp k a))) ->
  forall i j, (i < 3)%nat -> (j < 3)%nat -> is_finite (mfun (q_to_rotation a) i j) = true ->
  let A := fun k => B2R (qcomp k a) in
  Rabs (B2R (mfun (q_to_rotation a) i j) - comp4 (S i) (hamilton (hamilton (h4 A) (e4 j)) (h4conj A)))
  <= ((1 + uro) ^ 4 - 1) * (2 * (A 0%nat ^ 2 + A 1%nat ^ 2 + A 2%nat ^ 2 + A 3%nat ^ 2)).
Proof.
  intros a q Hq Hn G i j Hi Hj F A. change 2%Z with (Z.of_nat 2) in Hn.
  pose proof (G 0%nat ltac:(lia)) as a0. pose proof (G 1%nat ltac:(lia)) as a1.
  pose proof (G 2%nat ltac:(lia)) as a2. pose proof (G 3%nat ltac:(lia)) as a3.
  apply (rerr_leaf q 2) in a0, a1, a2, a3. clear G. subst A.
  destruct a as [x0 (x1&x2&x3&[]) fa].
  lazy [qcomp vfun List.nth alist q0 Quat.q fst snd] in a0, a1, a2, a3.
  destruct i as [ |[ |[ |i]]]; [ | | |lia]; (destruct j as [ |[ |[ |j]]]; [ | | |lia]); open_q F;
    (eapply rerr_done; [rerr_go Hq Hn|reflexivity|..]);
    [ | | | |exact F| | | | |exact F| | | | |exact F| | | | |exact F| | | | |exact F
     | | | | |exact F| | | | |exact F| | | | |exact F| | | | |exact F];
    try (lazy; lia); lazy [hamilton h4 h4conj comp4 e4 add sub mul one R_Num]; try ring.
  all: rewrite <- (pow2_abs (B2R x0)), <- (pow2_abs (B2R x1)), <- (pow2_abs (B2R x2)), <- (pow2_abs (B2R x3)).
  all: generalize (Rabs (B2R x0)), (Rabs (B2R x1)), (Rabs (B2R x2)), (Rabs (B2R x3)); intros a b c d;
    pose proof (pow2_ge_0 (a - b)); pose proof (pow2_ge_0 (a - c)); pose proof (pow2_ge_0 (a - d));
    pose proof (pow2_ge_0 (b - c)); pose proof (pow2_ge_0 (b - d)); pose proof (pow2_ge_0 (c - d));
    pose proof (pow2_ge_0 a); pose proof (pow2_ge_0 b); pose proof (pow2_ge_0 c); pose proof (pow2_ge_0 d); lra.
Qed.
End F.

(** ** Concrete cases (f64) *)
#[local] Instance prec53 : Prec_gt_0 53 := eq_refl.
#[local] Instance emax1024 : Prec_lt_emax 53 1024 := eq_refl.
#[local] Notation f64 := (binary_float 53 1024).
#[local] Notation "# n" := (fofZ n : f64) (at level 1).

Lemma int_val n : (Z.abs n <= 2 ^ 53)%Z -> B2R # n = IZR n.
Proof. intros H. apply (fofZ_int n H). Qed.
Lemma int_grid n : (Z.abs n <= 2 ^ 53)%Z -> grid 0 (B2R # n).
Proof. intros H. rewrite (int_val n H). exists n. cbn. ring. Qed.

(** a determinant that is rounded: the exact value is 1, the computed one 0 *)
Definition nearsing : mat f64 2 := [| [| #94906266; #94906267 |]; [| #94906265; #94906266 |] |].
Example C80_det_case : B2R (d_det D2 nearsing) = 0
  /\ Rabs (0 - 1) <= ((1 + uro (prec := 53)) ^ 2 - 1) * (94906266 * 94906266 + 94906267 * 94906265).
Proof.
  assert (D : B2R (d_det D2 nearsing) = 0).
  { replace (d_det D2 nearsing) with (B754_zero false : f64) by (apply B2SF_inj; vm_compute; reflexivity). reflexivity. }
  split; [exact D| ].
  pose proof (c80_det_error D2 nearsing 0 ltac:(lia) ltac:(cbn; lia)) as H.
  assert (G : forall i j, (i < 2)%nat -> (j < 2)%nat -> grid 0 (B2R (mfun nearsing i j))).
  { intros i j Hi Hj. all_lt i Hi; all_lt j Hj; apply int_grid; vm_compute; discriminate. }
  specialize (H G ltac:(vm_compute; reflexivity)). cbv zeta in H. rewrite D in H.
  lazy [dimn det_depth lperm ldet sumn minor skip Nat.ltb Nat.leb sgn] in H.
  change (mfun nearsing 0 0) with #94906266 in H. change (mfun nearsing 0 1) with #94906267 in H.
  change (mfun nearsing 1 0) with #94906265 in H. change (mfun nearsing 1 1) with #94906266 in H.
  rewrite !int_val in H by (vm_compute; discriminate).
  rewrite (Rabs_pos_eq 94906265), (Rabs_pos_eq 94906266), (Rabs_pos_eq 94906267) in H by lra.
  eapply Rle_trans; [ |eapply Rle_trans; [exact H| ]]; apply Req_le; [f_equal|f_equal];
    lazy [zero one add mul neg R_Num R_Signed sgn]; ring.
Qed.

Lemma pow_two u n : 0 < u -> INR n * u <= / 2 -> (1 + u) ^ n <= 2.
Proof.
  intros U L. pose proof (pow_gamma n u U ltac:(lra)) as G. set (z := INR n * u) in *. clearbody z.
  assert (z / (1 - z) <= 1) by (apply (Rmult_le_reg_r (1 - z)); [lra| ]; field_simplify; lra). lra.
Qed.

(** entries up to 2^100 in a 6x6 matrix cannot overflow *)
Example C80_finite_case : forall x : mat f64 6,
  (forall i j, (i < 6)%nat -> (j < 6)%nat ->
     is_finite (mfun x i j) = true /\ grid (-100) (B2R (mfun x i j)) /\ Rabs (B2R (mfun x i j)) <= bpow radix2 100) ->
  is_finite (d_det D6 x) = true.
Proof.
  intros x H. apply (c80_det_finite D6 x (-100) (bpow radix2 100)); try exact H; try (cbn; lia).
  - change 1 with (bpow radix2 0). apply bpow_le. lia.
  - cbn [dimn det_depth].
    assert (U : uro (prec := 53) <= / 1000000).
    { unfold uro. change (1 - 53)%Z with (-52)%Z. cbn. lra. }
    pose proof (uro_pos (prec := 53)) as U0.
    assert (P : 0 <= (1 + uro (prec := 53)) ^ 724 <= 2).
    { split; [apply pow_le; lra|apply pow_two; [exact U0| ]]. rewrite INR_IZR_INZ. change (Z.of_nat 724) with 724%Z. lra. }
    revert P. generalize ((1 + uro (prec := 53)) ^ 724). intros p P. clear U U0 H.
    replace (bpow radix2 100 ^ 6) with (bpow radix2 600).
    2: { cbn [pow]. rewrite Rmult_1_r, <- !bpow_plus. reflexivity. }
    replace (INR (fact 6)) with 720 by (rewrite INR_IZR_INZ; replace (Z.of_nat (fact 6)) with 720%Z by (vm_compute; reflexivity); reflexivity).
    apply Rle_lt_trans with (bpow radix2 611).
    + replace (bpow radix2 611) with (2 * (1024 * bpow radix2 600)).
      2: { change 611%Z with (1 + (10 + 600))%Z. rewrite !bpow_plus. cbn. ring. }
      pose proof (bpow_gt_0 radix2 600) as B. set (y := bpow radix2 600) in *. clearbody y.
      clear - P B. nra.
    + apply bpow_lt. lia.
Qed.

Example C80_cross_case : let a := [| #(2 ^ 30 + 1); #3; #5 |] : V3 f64 in let b := [| #7; #(2 ^ 31 - 1); #11 |] : V3 f64 in
  Rabs (B2R (vfun (v3_cross a b) 2) - 2305843010287435754) <= ((1 + uro (prec := 53)) ^ 2 - 1) * 2305843010287435796.
Proof.
  intros a b. pose proof (c80_cross_error a b 0 ltac:(lia) ltac:(cbn; lia)) as H.
  assert (G : forall k, (k < 3)%nat -> grid 0 (B2R (vfun a k)) /\ grid 0 (B2R (vfun b k))).
  { intros k Hk. all_lt k Hk; split; apply int_grid; vm_compute; discriminate. }
  specialize (H G 2%nat ltac:(lia) ltac:(vm_compute; reflexivity)). cbv beta zeta in H.
  change (Nat.modulo (2 + 1) 3) with 0%nat in H. change (Nat.modulo (2 + 2) 3) with 1%nat in H.
  change (vfun a 0) with #(2 ^ 30 + 1) in H. change (vfun a 1) with #3 in H.
  change (vfun b 0) with #7 in H. change (vfun b 1) with #(2 ^ 31 - 1) in H.
  rewrite !int_val in H by (vm_compute; discriminate).
  change (2 ^ 30 + 1)%Z with 1073741825%Z in H. change (2 ^ 31 - 1)%Z with 2147483647%Z in H.
  rewrite !Rabs_mult in H.
  rewrite (Rabs_pos_eq 1073741825), (Rabs_pos_eq 2147483647), (Rabs_pos_eq 3), (Rabs_pos_eq 7) in H by lra.
  eapply Rle_trans; [ |eapply Rle_trans; [exact H| ]]; apply Req_le; [f_equal|f_equal]; ring.
Qed.

(** the remaining theorems applied to concrete arguments *)
Definition qa : Quaternion f64 := q_new #(2 ^ 30 + 1) [| #3; #(-5); #(2 ^ 29 - 7) |].
Definition qb : Quaternion f64 := q_new #(2 ^ 27 + 9) [| #(-2 ^ 31 + 3); #4; #1 |].
Definition vb : V3 f64 := [| #(2 ^ 20 + 1); #(-4); #6 |].

Example C80_q_mul_case : forall c, (c < 4)%nat ->
  let A := fun k => B2R (qcomp k qa) in let B := fun k => B2R (qcomp k qb) in
  Rabs (B2R (qcomp c (q_mul qa qb)) - comp4 c (hamilton (h4 A) (h4 B))) <= ((1 + uro (prec := 53)) ^ 4 - 1) * hmag A B c.
Proof.
  intros c Hc. apply (c80_q_mul_error qa qb 0); [lia|cbn; lia| |exact Hc| ].
  - intros k Hk. all_lt k Hk; split; apply int_grid; vm_compute; discriminate.
  - all_lt c Hc; vm_compute; reflexivity.
Qed.

Example C80_q_mul_v_case : forall i, (i < 3)%nat ->
  let w := B2R (q0 qa) in let u := fun k => B2R (vfun (Quat.q qa) k) in let V := fun k => B2R (vfun vb k) in
  Rabs (B2R (vfun (q_mul_v qa vb) i) - rotR w u V i)
  <= ((1 + uro (prec := 53)) ^ 7 - 1) * (mag3 V * (1 + 2 * (Rabs w + mag3 u) ^ 2)).
Proof.
  intros i Hi. apply (c80_q_mul_v_error qa vb 0); [lia|cbn; lia| | |exact Hi| ].
  - intros k Hk. all_lt k Hk; apply int_grid; vm_compute; discriminate.
  - intros k Hk. all_lt k Hk; apply int_grid; vm_compute; discriminate.
  - all_lt i Hi; vm_compute; reflexivity.
Qed.

Example C80_to_rotation_case : forall i j, (i < 3)%nat -> (j < 3)%nat -> let A := fun k => B2R (qcomp k qa) in
  Rabs (B2R (mfun (q_to_rotation qa) i j) - comp4 (S i) (hamilton (hamilton (h4 A) (e4 j)) (h4conj A)))
  <= ((1 + uro (prec := 53)) ^ 4 - 1) * (2 * (A 0%nat ^ 2 + A 1%nat ^ 2 + A 2%nat ^ 2 + A 3%nat ^ 2)).
Proof.
  intros i j Hi Hj. apply (c80_to_rotation_error qa 0); [lia|cbn; lia| |exact Hi|exact Hj| ].
  - intros k Hk. all_lt k Hk; apply int_grid; vm_compute; discriminate.
  - all_lt i Hi; all_lt j Hj; vm_compute; reflexivity.
Qed.

(** a matrix far from singular: [inverse] answers; a nearly singular one is rejected though its determinant is 1 *)
Definition farsing : mat f64 2 := [| [| #3; #1 |]; [| #1; #2 |] |].
Example C80_gate_case (O : FOracle f64) : (exists B, d_inverse D2 farsing = Ok (Some B)) /\ d_inverse D2 nearsing = Ok None
  /\ 0 < B2R (d_det D2 farsing) * 5.
Proof.
  assert (G : forall i j, (i < 2)%nat -> (j < 2)%nat -> grid 0 (B2R (mfun farsing i j))).
  { intros i j Hi Hj. all_lt i Hi; all_lt j Hj; apply int_grid; vm_compute; discriminate. }
  assert (U : uro (prec := 53) <= / 1000000).
  { unfold uro. change (1 - 53)%Z with (-52)%Z. cbn. lra. }
  pose proof (uro_pos (prec := 53)) as U0.
  assert (L : ldet 2 (fun i j => B2R (mfun farsing i j)) = 5 /\ lperm 2 (fun i j => B2R (mfun farsing i j)) = 7).
  { lazy [lperm ldet sumn minor skip Nat.ltb Nat.leb sgn].
    change (mfun farsing 0 0) with #3. change (mfun farsing 0 1) with #1.
    change (mfun farsing 1 0) with #1. change (mfun farsing 1 1) with #2.
    rewrite !int_val by (vm_compute; discriminate).
    rewrite (Rabs_pos_eq 1), (Rabs_pos_eq 2), (Rabs_pos_eq 3) by lra. lazy [zero one add mul neg R_Num R_Signed]. split; ring. }
  destruct L as [L P]. assert (B : ((1 + uro (prec := 53)) ^ 2 - 1) * 7 < 1) by (cbn [pow]; nra).
  split; [ |split].
  - apply (c80_inverse_gate D2 farsing 0 ltac:(lia) ltac:(cbn; lia) G ltac:(vm_compute; reflexivity)).
    cbn [dimn det_depth]. rewrite L, P, (Rabs_pos_eq 5) by lra.
    assert (bpow radix2 (1 - 53) < 1) by (change 1 with (bpow radix2 0); apply bpow_lt; lia). lra.
  - apply c68_inverse_none_iff. vm_compute. reflexivity.
  - pose proof (c80_det_sign D2 farsing 0 ltac:(lia) ltac:(cbn; lia) G ltac:(vm_compute; reflexivity)) as H.
    cbv zeta in H. cbn [dimn det_depth] in H. rewrite L, P, (Rabs_pos_eq 5) in H by lra. apply H. lra.
Qed.
