(** * ProofsFloatRot: rotations on floats, with underflow (C87) *)

From Coq Require Import List Arith ZArith Reals Bool Lra Lia.
From Flocq Require Import Core Relative Plus_error IEEE754.BinarySingleNaN.
From Verif Require Import Base Scalar Vec Mat2 Mat3 Mat4 Mat5 Mat6 Slices MatLoops MatOps Quat Transf RingDet Spec LoopFacts Entries InstZ InstR InstF FloatFacts ProofsQuat ProofsFloat ProofsFloat2 ProofsFloatErr ProofsFloatNorm.
Local Open Scope R_scope.

Section F.
Context {prec emax : Z} {Hp : Prec_gt_0 prec} {He : Prec_lt_emax prec emax} {O : FOracle (binary_float prec emax)}.
Notation fl := (binary_float prec emax).
Notation emin := (3 - emax - prec)%Z.
Notation fe := (FLT_exp emin prec).
Notation rnd := (round radix2 fe ZnearestE).
Notation uro := (uro (prec := prec)).
Notation eta := (eta (prec := prec) (emax := emax)).

(** ** errors of polynomials: magnitude, number of roundings, underflow *)
Definition bdu : Type := (R * nat * R)%type.
Definition bdu_Num : Num bdu := {|
  zero := (0, 0%nat, 0); one := (1, 0%nat, 0);
  add := fun '(b, d, h) '(b', d', h') => (b + b', S (Nat.max d d'), h + h');
  sub := fun '(b, d, h) '(b', d', h') => (b + b', S (Nat.max d d'), h + h');
  mul := fun '(b, d, h) '(b', d', h') => (b * b', S (d + d'), b * h' + b' * h + h * h' + eta);
  div := fun a b => a; eqb := fun a b => true
|}.
#[local] Existing Instance bdu_Num.

Definition uerr (x : fl) (r : R) (t : bdu) : Prop :=
  let '(b, d, h) := t in 0 <= b /\ 0 <= h /\ (is_finite x = true ->
  Rabs r <= b /\ Rabs (B2R x - r) <= ((1 + uro) ^ d - 1) * b + (1 + uro) ^ d * h).

Lemma usum_step z z' r r' b b' h h' P (y : R) : 1 <= P -> 0 <= h -> 0 <= h' -> Rabs r <= b -> Rabs r' <= b' ->
  Rabs (z - r) <= (P - 1) * b + P * h -> Rabs (z' - r') <= (P - 1) * b' + P * h' ->
  Rabs (y - (z + z')) <= uro * Rabs (z + z') ->
  Rabs (y - (r + r')) <= ((1 + uro) * P - 1) * (b + b') + (1 + uro) * P * (h + h').
Proof.
  intros HP Hh Hh' A A' E E' Y. pose proof (uro_pos (prec := prec)) as U.
  replace (y - (r + r')) with ((y - (z + z')) + ((z - r) + (z' - r'))) by ring.
  assert (Z : Rabs (z + z') <= P * (b + b') + P * (h + h')).
  { replace (z + z') with ((z - r) + (z' - r') + (r + r')) by ring.
    eapply Rle_trans; [apply Rabs_triang| ].
    pose proof (Rabs_triang (z - r) (z' - r')). pose proof (Rabs_triang r r'). lra. }
  eapply Rle_trans; [apply Rabs_triang| ].
  pose proof (Rabs_triang (z - r) (z' - r')).
  assert (uro * Rabs (z + z') <= uro * (P * (b + b') + P * (h + h'))) by (apply Rmult_le_compat_l; lra). lra.
Qed.

Lemma uerr_le d d' b h r (x : R) : (d <= d')%nat -> 0 <= b -> 0 <= h ->
  Rabs (x - r) <= ((1 + uro) ^ d - 1) * b + (1 + uro) ^ d * h -> Rabs (x - r) <= ((1 + uro) ^ d' - 1) * b + (1 + uro) ^ d' * h.
Proof.
  intros L B H E. eapply Rle_trans; [exact E| ]. pose proof (pow_mono d d' L : _ <= _ <= (1 + uro) ^ d').
  apply Rplus_le_compat; apply Rmult_le_compat_r; lra.
Qed.

Lemma plus_rel (x y : fl) : is_finite (Bplus mode_NE x y) = true ->
  Rabs (B2R (Bplus mode_NE x y) - (B2R x + B2R y)) <= uro * Rabs (B2R x + B2R y).
Proof.
  intros F. destruct (plus_error x y F) as (e & Le & ->).
  replace ((B2R x + B2R y) * (1 + e) - (B2R x + B2R y)) with (e * (B2R x + B2R y)) by ring. rewrite Rabs_mult.
  apply Rmult_le_compat_r; [apply Rabs_pos|exact Le].
Qed.

Lemma uerr_add (x x' : fl) r r' t t' : uerr x r t -> uerr x' r' t' -> uerr (add x x') (add r r') (add t t').
Proof.
  destruct t as ((b&d)&h), t' as ((b'&d')&h'). cbn [add bdu_Num F_Num R_Num uerr]. intros (B0 & H0 & A) (B0' & H0' & A').
  split; [lra|split; [lra| ]]. intros F.
  destruct (plus_finite x x' F) as (F1 & F2 & _). destruct (A F1) as (B & C), (A' F2) as (B' & C'). split.
  - pose proof (Rabs_triang r r'). lra.
  - change ((1 + uro) ^ S (Nat.max d d')) with ((1 + uro) * (1 + uro) ^ Nat.max d d').
    apply (usum_step (B2R x) (B2R x')); try assumption.
    + apply (pow_mono 0). lia.
    + apply (uerr_le d); try assumption. lia.
    + apply (uerr_le d'); try assumption. lia.
    + apply plus_rel, F.
Qed.

Lemma uerr_opp (x : fl) r t : uerr x r t -> uerr (Bopp x) (- r) t.
Proof.
  destruct t as ((b&d)&h). intros (B0 & H0 & A). split; [exact B0|split; [exact H0| ]]. intros F. rewrite is_finite_Bopp in F.
  destruct (A F) as (B & C). rewrite Rabs_Ropp, B2R_Bopp. split; [exact B| ].
  replace (- B2R x - - r) with (- (B2R x - r)) by ring. rewrite Rabs_Ropp. exact C.
Qed.

Lemma uerr_sub (x x' : fl) r r' t t' : uerr x r t -> uerr x' r' t' -> uerr (sub x x') (sub r r') (sub t t').
Proof.
  intros A A'. pose proof (uerr_add _ _ _ _ _ _ A (uerr_opp _ _ _ A')) as X.
  cbn [sub F_Num R_Num]. rewrite Bminus_plus. exact X.
Qed.

(** the exact product of two numbers known up to errors *)
Lemma umul_step z z' r r' b b' h h' p p' : 1 <= p -> 1 <= p' -> 0 <= h -> 0 <= h' -> Rabs r <= b -> Rabs r' <= b' ->
  Rabs (z - r) <= (p - 1) * b + p * h -> Rabs (z' - r') <= (p' - 1) * b' + p' * h' ->
  Rabs (z * z' - r * r') <= p * p' * ((b + h) * (b' + h')) - b * b' /\ Rabs (z * z') <= p * p' * ((b + h) * (b' + h')).
Proof.
  intros L L' H H' B B' C C'. pose proof (Rabs_pos r) as P. pose proof (Rabs_pos r') as P'.
  pose proof (Rabs_pos (z - r)) as Q. pose proof (Rabs_pos (z' - r')) as Q'.
  assert (X : Rabs (z * z' - r * r') <= p * p' * ((b + h) * (b' + h')) - b * b').
  { replace (z * z' - r * r') with ((z - r) * r' + r * (z' - r') + (z - r) * (z' - r')) by ring.
    eapply Rle_trans; [apply Rabs_triang| ]. eapply Rle_trans; [apply Rplus_le_compat_r, Rabs_triang| ].
    rewrite !Rabs_mult. set (e := (p - 1) * b + p * h) in *. set (e' := (p' - 1) * b' + p' * h') in *.
    assert (Rabs (z - r) * Rabs r' <= e * b') by (apply Rmult_le_compat; assumption).
    assert (Rabs r * Rabs (z' - r') <= b * e') by (apply Rmult_le_compat; assumption).
    assert (Rabs (z - r) * Rabs (z' - r') <= e * e') by (apply Rmult_le_compat; assumption).
    replace (p * p' * ((b + h) * (b' + h')) - b * b') with (e * b' + b * e' + e * e') by (unfold e, e'; ring). lra. }
  split; [exact X| ]. replace (z * z') with ((z * z' - r * r') + r * r') by ring. eapply Rle_trans; [apply Rabs_triang| ].
  assert (Rabs (r * r') <= b * b') by (rewrite Rabs_mult; apply Rmult_le_compat; assumption). lra.
Qed.

Lemma uerr_mul (x x' : fl) r r' t t' : uerr x r t -> uerr x' r' t' -> uerr (mul x x') (mul r r') (mul t t').
Proof.
  destruct t as ((b&d)&h), t' as ((b'&d')&h'). cbn [mul bdu_Num F_Num R_Num uerr]. intros (B0 & H0 & A) (B0' & H0' & A').
  pose proof (eta_pos (prec := prec) (emax := emax)) as ET. pose proof (uro_pos (prec := prec)) as U.
  assert (HH : 0 <= b * h' + b' * h + h * h').
  { pose proof (Rmult_le_pos _ _ B0 H0'). pose proof (Rmult_le_pos _ _ B0' H0). pose proof (Rmult_le_pos _ _ H0 H0'). lra. }
  split; [apply Rmult_le_pos; assumption|split; [lra| ]]. intros F.
  destruct (mult_finite x x' F) as (F1 & F2 & _). destruct (A F1) as (B & C), (A' F2) as (B' & C'). split.
  - rewrite Rabs_mult. apply Rmult_le_compat; try assumption; apply Rabs_pos.
  - change ((1 + uro) ^ S (d + d')) with ((1 + uro) * (1 + uro) ^ (d + d')). rewrite pow_add.
    destruct (mult_error x x' F) as (e & g & Le & Lg & E). rewrite E.
    pose proof (pow_mono 0 d ltac:(lia) : _ <= _ <= (1 + uro) ^ d) as [_ L]. pose proof (pow_mono 0 d' ltac:(lia) : _ <= _ <= (1 + uro) ^ d') as [_ L'].
    rewrite pow_O in L, L'.
    destruct (umul_step (B2R x) (B2R x') r r' b b' h h' _ _ L L' H0 H0' B B' C C') as [X Y].
    set (p := (1 + uro) ^ d) in *. set (p' := (1 + uro) ^ d') in *.
    set (z := B2R x) in *. set (z' := B2R x') in *. set (H := b * h' + b' * h + h * h') in *.
    replace ((b + h) * (b' + h')) with (b * b' + H) in X, Y by (unfold H; ring).
    clearbody z z' p p' H. clear E F F1 F2 A A' C C'.
    replace (z * z' * (1 + e) + g - r * r') with ((z * z' - r * r') + (e * (z * z') + g)) by ring.
    eapply Rle_trans; [apply Rabs_triang| ]. pose proof (Rabs_triang (e * (z * z')) g) as T. rewrite (Rabs_mult e) in T.
    assert (Rabs e * Rabs (z * z') <= uro * (p * p' * (b * b' + H))) by (apply Rmult_le_compat; try assumption; apply Rabs_pos).
    assert (1 <= p * p') by nra. assert (1 * eta <= (1 + uro) * (p * p') * eta) by (apply Rmult_le_compat_r; nra). lra.
Qed.

Lemma uerr_leaf (x : fl) : uerr x (B2R x) (Rabs (B2R x), 0%nat, 0).
Proof.
  split; [apply Rabs_pos|split; [lra| ]]. intros _. split; [lra| ]. unfold Rminus. rewrite Rplus_opp_r, Rabs_R0. cbn. lra.
Qed.

Lemma uerr_one : uerr one 1 (1, 0%nat, 0).
Proof.
  split; [lra|split; [lra| ]]. intros _. change (one : fl) with (Bone : fl). rewrite Bone_correct, Rabs_R1. split; [lra| ].
  unfold Rminus. rewrite Rplus_opp_r, Rabs_R0. cbn. lra.
Qed.

Lemma uerr_done (x : fl) r t b d h r' b' h' D : uerr x r t -> t = (b, d, h) -> (d <= D)%nat ->
  r = r' -> b <= b' -> h <= h' -> is_finite x = true -> Rabs (B2R x - r') <= ((1 + uro) ^ D - 1) * b' + (1 + uro) ^ D * h'.
Proof.
  intros H -> L <- B Hh F. destruct H as (B0 & H0 & A). destruct (A F) as (_ & E).
  apply (uerr_le d D b h) in E; try assumption. pose proof (pow_mono 0 D ltac:(lia) : _ <= _ <= (1 + uro) ^ D) as [_ P]. rewrite pow_O in P.
  eapply Rle_trans; [exact E| ]. apply Rplus_le_compat; apply Rmult_le_compat_l; lra.
Qed.

Ltac uerr_go := lazymatch goal with
  | |- uerr (add _ _) _ _ => eapply uerr_add; uerr_go
  | |- uerr (sub _ _) _ _ => eapply uerr_sub; uerr_go
  | |- uerr (mul _ _) _ _ => eapply uerr_mul; uerr_go
  | |- uerr one _ _ => eapply uerr_one
  | |- _ => eapply uerr_leaf
  end.
Ltac open_q F := lazy [q_dot q_mul q_mul_v q_to_rotation q_new v3_add v3_scale v3_cross v3_dot qcomp vfun mfun List.nth List.map alist ix0 ix1 ix2 ahd atl acons anil fst snd
  q0 Quat.q q_real q_imag] in F |- *.
Ltac pos_poly := match goal with |- ?a <= ?b => apply Rminus_le_0; ring_simplify;
  repeat first [apply Rplus_le_le_0_compat|apply Rmult_le_pos|apply pow_le|assumption|lra] end.
Ltac gen_abs x := generalize (Rabs_pos (B2R x)); generalize (Rabs (B2R x)); intros ? ?.
Ltac gen_eta := let E := fresh in pose proof (Rlt_le _ _ (eta_pos (prec := prec) (emax := emax))) as E; revert E; generalize eta; intros ? ?.

(** cross product, any finite result *)
Lemma c87_cross_error : forall (a b : V3 fl) i, (i < 3)%nat -> is_finite (vfun (v3_cross a b) i) = true ->
  let A := fun i => B2R (vfun a i) in let B := fun i => B2R (vfun b i) in
  let j := Nat.modulo (i + 1) 3 in let k := Nat.modulo (i + 2) 3 in
  Rabs (B2R (vfun (v3_cross a b) i) - crossR A B i)
  <= ((1 + uro) ^ 2 - 1) * (Rabs (A j * B k) + Rabs (A k * B j)) + (1 + uro) ^ 2 * (2 * eta).
Proof.
  intros a b i Hi F A B j k. subst A B j k. destruct a as (x1&x2&x3&[]), b as (y1&y2&y3&[]).
  destruct i as [ |[ |[ |i]]]; [ | | |lia]; open_q F;
    (eapply uerr_done; [uerr_go|reflexivity|..]);
    [ | | | |exact F| | | | |exact F| | | | |exact F];
    try (lazy; lia); lazy [crossR Nat.modulo Nat.divmod Nat.add Nat.sub fst snd add sub mul one R_Num vfun List.nth alist ahd atl]; rewrite ?Rabs_mult; try ring; apply Req_le; ring.
Qed.

(** product of quaternions *)
Lemma c87_q_mul_error : forall (a b : Quaternion fl) c, (c < 4)%nat -> is_finite (qcomp c (q_mul a b)) = true ->
  let A := fun k => B2R (qcomp k a) in let B := fun k => B2R (qcomp k b) in
  Rabs (B2R (qcomp c (q_mul a b)) - comp4 c (hamilton (h4 A) (h4 B))) <= ((1 + uro) ^ 4 - 1) * hmag A B c + (1 + uro) ^ 4 * (4 * eta).
Proof.
  intros a b c Hc F A B. subst A B.
  destruct a as [x0 (x1&x2&x3&[]) fa], b as [y0 (y1&y2&y3&[]) fb].
  destruct c as [ |[ |[ |[ |c]]]]; [ | | | |lia]; open_q F;
    (eapply uerr_done; [uerr_go|reflexivity|..]);
    [ | | | |exact F| | | | |exact F| | | | |exact F| | | | |exact F];
    try (lazy; lia); lazy [hamilton h4 comp4 hmag add sub mul R_Num qcomp vfun List.nth alist ahd atl fst snd q0 Quat.q]; rewrite ?Rabs_mult; try ring; apply Req_le; ring.
Qed.

(** rotation of a vector *)
Lemma c87_q_mul_v_error : forall (a : Quaternion fl) (v : V3 fl) i, (i < 3)%nat -> is_finite (vfun (q_mul_v a v) i) = true ->
  let w := B2R (q0 a) in let u := fun k => B2R (vfun (Quat.q a) k) in let V := fun k => B2R (vfun v k) in
  Rabs (B2R (vfun (q_mul_v a v) i) - rotR w u V i)
  <= ((1 + uro) ^ 7 - 1) * (mag3 V * (1 + 2 * (Rabs w + mag3 u) ^ 2)) + (1 + uro) ^ 7 * (((Rabs w + mag3 u) * (2 + mag3 V) + 3) * eta).
Proof.
  intros a v i Hi F w u V. subst w u V.
  destruct a as [x0 (x1&x2&x3&[]) fa], v as (y1&y2&y3&[]).
  destruct i as [ |[ |[ |i]]]; [ | | |lia]; open_q F;
    (eapply uerr_done; [uerr_go|reflexivity|..]);
    [ | | | |exact F| | | | |exact F| | | | |exact F];
    try (lazy; lia); lazy [rotR crossR mag3 Nat.modulo Nat.divmod Nat.add Nat.sub fst snd add sub mul one R_Num qcomp vfun List.nth alist ahd atl q0 Quat.q]; try ring.
  all: gen_eta; gen_abs x0; gen_abs x1; gen_abs x2; gen_abs x3; gen_abs y1; gen_abs y2; gen_abs y3; pos_poly.
Qed.

(** the rotation matrix of a quaternion *)
Definition rot_exact (A : nat -> R) (i j : nat) : R := comp4 (S i) (hamilton (hamilton (h4 A) (e4 j)) (h4conj A)).

Lemma c87_to_rotation_error : forall (a : Quaternion fl) i j, (i < 3)%nat -> (j < 3)%nat -> is_finite (mfun (q_to_rotation a) i j) = true ->
  let A := fun k => B2R (qcomp k a) in
  Rabs (B2R (mfun (q_to_rotation a) i j) - comp4 (S i) (hamilton (hamilton (h4 A) (e4 j)) (h4conj A)))
  <= ((1 + uro) ^ 4 - 1) * sq_sum 4 A + (1 + uro) ^ 4 * ((4 + Rabs (A 0%nat) + Rabs (A 1%nat) + Rabs (A 2%nat) + Rabs (A 3%nat)) * eta).
Proof.
  intros a i j Hi Hj F A. subst A.
  destruct a as [x0 (x1&x2&x3&[]) fa].
  destruct i as [ |[ |[ |i]]]; [ | | |lia]; (destruct j as [ |[ |[ |j]]]; [ | | |lia]); open_q F;
    (eapply uerr_done; [uerr_go|reflexivity|..]);
    [ | | | |exact F| | | | |exact F| | | | |exact F| | | | |exact F| | | | |exact F
     | | | | |exact F| | | | |exact F| | | | |exact F| | | | |exact F];
    try (lazy; lia); lazy [hamilton h4 h4conj comp4 e4 sq_sum sumn add sub mul one zero R_Num qcomp vfun List.nth alist ahd atl fst snd q0 Quat.q]; try ring.
  all: assert (Q : forall x, x * x = Rabs x * Rabs x) by (intros x; rewrite <- Rabs_mult, Rabs_pos_eq; [reflexivity|nra]).
  all: rewrite ?(Q (B2R x0)), ?(Q (B2R x1)), ?(Q (B2R x2)), ?(Q (B2R x3)), ?Rabs_Rabsolu; clear Q.
  all: gen_eta; gen_abs x0; gen_abs x1; gen_abs x2; gen_abs x3.
  all: first [solve [pos_poly]
    |match goal with |- _ <= 0 + ?a * ?a + ?b * ?b + ?c * ?c + ?d * ?d =>
       pose proof (pow2_ge_0 (a - b)); pose proof (pow2_ge_0 (a - c)); pose proof (pow2_ge_0 (a - d));
       pose proof (pow2_ge_0 (b - c)); pose proof (pow2_ge_0 (b - d)); pose proof (pow2_ge_0 (c - d)); lra end].
Qed.

(** ** orthogonality of the computed matrix *)
Lemma rot_gram (A : nat -> R) i j : (i < 3)%nat -> (j < 3)%nat ->
  rot_exact A 0 i * rot_exact A 0 j + rot_exact A 1 i * rot_exact A 1 j + rot_exact A 2 i * rot_exact A 2 j
  = if Nat.eqb i j then sq_sum 4 A ^ 2 else 0.
Proof.
  intros Hi Hj. destruct i as [ |[ |[ |i]]]; [ | | |lia]; (destruct j as [ |[ |[ |j]]]; [ | | |lia]);
  lazy [rot_exact hamilton h4 h4conj comp4 e4 sq_sum sumn add sub mul one zero R_Num Nat.eqb]; ring.
Qed.

Lemma rot_bound (A : nat -> R) i j : (i < 3)%nat -> (j < 3)%nat -> Rabs (rot_exact A i j) <= sq_sum 4 A.
Proof.
  intros Hi Hj. pose proof (rot_gram A j j Hj Hj) as G. rewrite Nat.eqb_refl in G. pose proof (sq_sum_pos 4 A) as P.
  rewrite <- (Rabs_pos_eq (sq_sum 4 A) P). apply Rsqr_le_abs_0. unfold Rsqr.
  pose proof (pow2_ge_0 (rot_exact A 0 j)). pose proof (pow2_ge_0 (rot_exact A 1 j)). pose proof (pow2_ge_0 (rot_exact A 2 j)).
  destruct i as [ |[ |[ |i]]]; [ | | |lia]; lra.
Qed.

Lemma prod_pert x y r s M e : Rabs r <= M -> Rabs s <= M -> Rabs (x - r) <= e -> Rabs (y - s) <= e ->
  Rabs (x * y - r * s) <= 2 * M * e + e * e.
Proof.
  intros A B C D. replace (x * y - r * s) with ((x - r) * s + r * (y - s) + (x - r) * (y - s)) by ring.
  eapply Rle_trans; [apply Rabs_triang| ]. eapply Rle_trans; [apply Rplus_le_compat_r, Rabs_triang| ]. rewrite !Rabs_mult.
  assert (Rabs (x - r) * Rabs s <= e * M) by (apply Rmult_le_compat; try assumption; apply Rabs_pos).
  assert (Rabs r * Rabs (y - s) <= M * e) by (apply Rmult_le_compat; try assumption; apply Rabs_pos).
  assert (Rabs (x - r) * Rabs (y - s) <= e * e) by (apply Rmult_le_compat; try assumption; apply Rabs_pos). lra.
Qed.

Lemma c87_to_rotation_orthogonal : forall (a : Quaternion fl),
  (forall i j, (i < 3)%nat -> (j < 3)%nat -> is_finite (mfun (q_to_rotation a) i j) = true) ->
  let A := fun k => B2R (qcomp k a) in let X := fun i j => B2R (mfun (q_to_rotation a) i j) in
  let N := sq_sum 4 A in
  let e := ((1 + uro) ^ 4 - 1) * N + (1 + uro) ^ 4 * ((4 + Rabs (A 0%nat) + Rabs (A 1%nat) + Rabs (A 2%nat) + Rabs (A 3%nat)) * eta) in
  forall i j, (i < 3)%nat -> (j < 3)%nat ->
  Rabs (X 0%nat i * X 0%nat j + X 1%nat i * X 1%nat j + X 2%nat i * X 2%nat j - (if Nat.eqb i j then 1 else 0))
  <= Rabs (N ^ 2 - 1) + 3 * (2 * N * e + e * e).
Proof.
  intros a F A X N e i j Hi Hj.
  assert (E : forall k l, (k < 3)%nat -> (l < 3)%nat -> Rabs (X k l - rot_exact A k l) <= e).
  { intros k l Hk Hl. exact (c87_to_rotation_error a k l Hk Hl (F k l Hk Hl)). }
  assert (B : forall k, (k < 3)%nat -> Rabs (X k i * X k j - rot_exact A k i * rot_exact A k j) <= 2 * N * e + e * e).
  { intros k Hk. apply prod_pert; try (apply rot_bound; assumption); apply E; assumption. }
  pose proof (B 0%nat ltac:(lia)) as B0. pose proof (B 1%nat ltac:(lia)) as B1. pose proof (B 2%nat ltac:(lia)) as B2.
  pose proof (rot_gram A i j Hi Hj) as G. fold N in G.
  set (x0 := X 0%nat i * X 0%nat j) in *. set (x1 := X 1%nat i * X 1%nat j) in *. set (x2 := X 2%nat i * X 2%nat j) in *.
  set (y0 := rot_exact A 0 i * rot_exact A 0 j) in *. set (y1 := rot_exact A 1 i * rot_exact A 1 j) in *. set (y2 := rot_exact A 2 i * rot_exact A 2 j) in *.
  set (w := 2 * N * e + e * e) in *. clearbody x0 x1 x2 y0 y1 y2 w. clear E B.
  assert (D : Rabs ((y0 + y1 + y2) - (if Nat.eqb i j then 1 else 0)) <= Rabs (N ^ 2 - 1)).
  { rewrite G. destruct (Nat.eqb i j); [apply Rle_refl|rewrite Rminus_0_r, Rabs_R0; apply Rabs_pos]. }
  replace (x0 + x1 + x2 - _) with ((x0 - y0) + (x1 - y1) + (x2 - y2) + ((y0 + y1 + y2) - (if Nat.eqb i j then 1 else 0))) by ring.
  eapply Rle_trans; [apply Rabs_triang| ]. pose proof (Rabs_triang ((x0 - y0) + (x1 - y1)) (x2 - y2)). pose proof (Rabs_triang (x0 - y0) (x1 - y1)). lra.
Qed.

(** ** normalization *)
Hypothesis Hp11 : (11 <= prec)%Z.
Hypothesis He4 : (4 * prec <= emax)%Z.

Lemma uro_bpow : uro = bpow radix2 (- prec).
Proof. unfold FloatFacts.uro. replace (1 - prec)%Z with (1 + - prec)%Z by ring. rewrite bpow_plus. change (bpow radix2 1) with 2. lra. Qed.
Lemma uro_small : uro <= / 2048.
Proof. rewrite uro_bpow. change (/ 2048) with (bpow radix2 (-11)). apply bpow_le. lia. Qed.
Lemma eta_small : eta <= 4 * uro ^ 5.
Proof.
  rewrite uro_bpow. cbn [pow]. rewrite Rmult_1_r, <- !bpow_plus. change 4 with (bpow radix2 2). rewrite <- bpow_plus. unfold FloatFacts.eta.
  replace (/ 2) with (bpow radix2 (-1)) by reflexivity. rewrite <- bpow_plus. apply bpow_le. lia.
Qed.
(** (1 + u)^n up to a linear bound *)
Lemma pow_lin n m : INR n * (1 + m / 2048) <= m -> 0 <= m -> (1 + uro) ^ n <= 1 + m * uro.
Proof.
  pose proof uro_small as U. pose proof (uro_pos (prec := prec)) as P. intros H M.
  assert (X : forall k, (k <= n)%nat -> (1 + uro) ^ k <= 1 + INR k * (1 + m / 2048) * uro).
  { induction k as [ |k IH]; intros L; [cbn; lra| ]. cbn [pow]. rewrite S_INR. specialize (IH ltac:(lia)).
    assert (K : INR k * (1 + m / 2048) <= m).
    { apply le_INR in L. rewrite S_INR in L. pose proof (pos_INR k).
      apply Rle_trans with (INR n * (1 + m / 2048)); [ |exact H]. apply Rmult_le_compat_r; lra. }
    pose proof (Rmult_le_compat_l (1 + uro) _ _ ltac:(lra) IH) as Y. pose proof (pos_INR k).
    set (c := INR k * (1 + m / 2048)) in *.
    assert (c * uro * uro <= m / 2048 * uro).
    { apply Rmult_le_compat_r; [lra| ]. apply Rle_trans with (m * uro); [apply Rmult_le_compat_r; lra| ]. unfold Rdiv. apply Rmult_le_compat_l; lra. }
    replace ((INR k + 1) * (1 + m / 2048)) with (c + (1 + m / 2048)) by (unfold c; ring). lra. }
  specialize (X n (le_n n)). eapply Rle_trans; [exact X| ]. apply Rplus_le_compat_l, Rmult_le_compat_r; lra.
Qed.

Lemma q_dot_uerr (a : Quaternion fl) : is_finite (q_dot a a) = true -> let S := sq_sum 4 (fun k => B2R (qcomp k a)) in
  Rabs (B2R (q_dot a a) - S) <= ((1 + uro) ^ 4 - 1) * S + (1 + uro) ^ 4 * (4 * eta).
Proof.
  intros F S. subst S. destruct a as [x0 (x1&x2&x3&[]) fa]. open_q F.
  eapply uerr_done; [uerr_go|reflexivity| | | | |exact F]; try (lazy; lia);
    lazy [sq_sum sumn add sub mul one zero R_Num qcomp vfun List.nth alist ahd atl fst snd q0 Quat.q]; try ring; [ |apply Req_le; ring].
  assert (Q : forall x, Rabs x * Rabs x = x * x) by (intros x; rewrite <- Rabs_mult, Rabs_pos_eq; [reflexivity|nra]). rewrite !Q. lra.
Qed.

(** the components of the normalized quaternion *)
Lemma q_normalize_comp (a b : Quaternion fl) : normalized a = false -> q_normalize a = Some b ->
  nearly_zero (q_norm2 a) = false /\ normalized b = true /\ forall k, (k < 4)%nat -> qcomp k b = Bdiv mode_NE (qcomp k a) (q_norm2 a).
Proof.
  intros N. unfold q_normalize. rewrite N. set (x := q_norm2 a). clearbody x. destruct (nearly_zero x); cbn [negb]; [discriminate| ].
  intros E. injection E as <-. split; [reflexivity|split; [reflexivity| ]]. destruct a as [x0 (x1&x2&x3&[]) fa].
  intros k Hk. destruct k as [ |[ |[ |[ |k]]]]; [reflexivity..|lia].
Qed.

(** the computed norm, when it is not below epsilon, squared against the exact sum of squares *)
Lemma norm_core S s n e : 0 <= S -> Rabs e <= uro -> n = sqrt s * (1 + e) -> 2 * uro <= n ->
  Rabs (s - S) <= ((1 + uro) ^ 4 - 1) * S + (1 + uro) ^ 4 * (4 * eta) ->
  3 * uro ^ 2 <= S /\ (1 - 612 / 100 * uro) * S <= n * n <= (1 + 612 / 100 * uro) * S.
Proof.
  intros HS Le En Hn E. pose proof uro_small as U. pose proof (uro_pos (prec := prec)) as P. pose proof eta_small as Et.
  pose proof (eta_pos (prec := prec) (emax := emax)) as E0.
  pose proof (pow_lin 4 (401 / 100) ltac:(cbn; lra) ltac:(lra)) as P4. pose proof (pow_mono 0 4 ltac:(lia) : _ <= _ <= (1 + uro) ^ 4) as [_ P4'].
  rewrite pow_O in P4'. set (p4 := (1 + uro) ^ 4) in *. clearbody p4.
  set (u := uro) in *. set (h := eta) in *. clearbody u h.
  assert (Sp : 0 < s). { destruct (Rle_lt_dec s 0) as [N|N]; [ |exact N]. rewrite (sqrt_neg_0 _ N) in En. lra. }
  pose proof (sqrt_sqrt s (Rlt_le _ _ Sp)) as Q. pose proof (sqrt_lt_R0 s Sp) as R. set (r := sqrt s) in *. clearbody r. subst s.
  assert (Ie : - u <= e <= u) by (unfold Rabs in Le; destruct (Rcase_abs e); lra).
  assert (U2 : u ^ 2 <= u / 2048) by nra. assert (U20 : 0 < u ^ 2) by nra.
  assert (H1 : 399 / 100 * u ^ 2 <= r * r).
  { assert (2 * u <= r * (1 + u)) by nra. assert (1999 / 1000 * u <= r) by nra. nra. }
  assert (Eh : h <= / 1000 * u ^ 2 * u).
  { assert (u ^ 5 = u ^ 2 * u * u ^ 2) by ring. assert (u ^ 2 * u * u ^ 2 <= u ^ 2 * u * / 4000) by (apply Rmult_le_compat_l; nra). lra. }
  assert (U3 : u ^ 2 * u <= u ^ 2 / 2048) by nra.
  assert (Ei : (1 - p4) * S - p4 * (4 * h) <= r * r - S <= (p4 - 1) * S + p4 * (4 * h)).
  { unfold Rabs in E. destruct (Rcase_abs _); lra. }
  assert (p4 * (4 * h) <= 2 * (4 * h)) by (apply Rmult_le_compat_r; lra).
  assert (HpS : (p4 - 1) * S <= 401 / 100 * u * S) by (apply Rmult_le_compat_r; lra).
  assert (S3 : 3 * u ^ 2 <= S). { assert (401 / 100 * u * S <= / 100 * S) by (apply Rmult_le_compat_r; lra). lra. }
  split; [exact S3| ].
  assert (Hh : p4 * (4 * h) <= / 100 * u * S). { assert (3 * u ^ 2 * u <= S * u) by (apply Rmult_le_compat_r; lra). lra. }
  assert (Rr : (1 - 402 / 100 * u) * S <= r * r <= (1 + 402 / 100 * u) * S) by lra.
  subst n. replace (r * (1 + e) * (r * (1 + e))) with ((r * r) * ((1 + e) * (1 + e))) by ring.
  assert (Q1 : 1 - 2 * u <= (1 + e) * (1 + e) <= 1 + 2 * u + u ^ 2) by nra.
  split.
  - apply Rle_trans with ((1 - 402 / 100 * u) * S * (1 - 2 * u)).
    + replace ((1 - 402 / 100 * u) * S * (1 - 2 * u)) with ((1 - 402 / 100 * u) * (1 - 2 * u) * S) by ring. apply Rmult_le_compat_r; [lra| ]. nra.
    + apply Rmult_le_compat; try lra. apply Rmult_le_pos; lra.
  - apply Rle_trans with ((1 + 402 / 100 * u) * S * (1 + 2 * u + u ^ 2)).
    + apply Rmult_le_compat; try lra; nra.
    + replace ((1 + 402 / 100 * u) * S * (1 + 2 * u + u ^ 2)) with ((1 + 402 / 100 * u) * (1 + 2 * u + u ^ 2) * S) by ring.
      apply Rmult_le_compat_r; [lra| ]. nra.
Qed.

(** one component: quotient, rounding and underflow *)
Lemma comp_core t e h u : 0 < u <= / 2048 -> 0 <= t * t <= 11 / 10 -> Rabs e <= u -> forall H, Rabs h <= H -> 0 <= H <= / 1000 ->
  Rabs ((t * (1 + e) + h) * (t * (1 + e) + h) - t * t) <= 2001 / 1000 * u * (t * t) + 4 * H.
Proof.
  intros U T Le H Lh HH.
  replace ((t * (1 + e) + h) * (t * (1 + e) + h) - t * t) with (t * t * (2 * e + e * e) + (2 * t * (1 + e) + h) * h) by ring.
  assert (Ie : - u <= e <= u) by (unfold Rabs in Le; destruct (Rcase_abs e); lra).
  assert (Ih : - H <= h <= H) by (unfold Rabs in Lh; destruct (Rcase_abs h); lra).
  eapply Rle_trans; [apply Rabs_triang| ]. apply Rplus_le_compat.
  - rewrite Rabs_mult, (Rabs_pos_eq (t * t)) by lra. rewrite Rmult_comm. apply Rmult_le_compat_r; [lra| ].
    apply Rabs_le. nra.
  - rewrite Rabs_mult. apply Rmult_le_compat; try assumption; try apply Rabs_pos.
    assert (It : - (106 / 100) <= t <= 106 / 100) by (split; nra).
    apply Rabs_le. assert (- / 1000 <= t * e <= / 1000) by nra. nra.
Qed.

Lemma c87_normalize : forall (a b : Quaternion fl), normalized a = false -> is_finite (q_norm2 a) = true -> q_normalize a = Some b ->
  let N := sqrt (sq_sum 4 (fun k => B2R (qcomp k a))) in let B := fun k => B2R (qcomp k b) in
  Rabs (sq_sum 4 B - 1) <= 9 * uro /\
  forall k, (k < 4)%nat -> is_finite (qcomp k b) = true /\ Rabs (B k - B2R (qcomp k a) / N) <= 5 * uro * Rabs (B2R (qcomp k a) / N) + eta.
Proof.
  intros a b Hn F E N B. destruct (q_normalize_comp a b Hn E) as (Z & _ & C).
  pose proof (finite_root (q_dot a a) F) as Fd. pose proof (q_dot_uerr a Fd) as D. cbv zeta in D.
  destruct (sqrt_round (q_dot a a)) as (e & Le & En). fold (q_norm2 a) in En.
  assert (H2 : 2 * uro <= B2R (q_norm2 a)).
  { rewrite nearly_zero_float in Z. destruct epsilon_val as [Fe Ve]. rewrite Bltb_correct in Z; [ |rewrite is_finite_Babs; exact F|exact Fe].
    rewrite B2R_Babs, Ve in Z. destruct (Rlt_bool_spec (Rabs (B2R (q_norm2 a))) (bpow radix2 (1 - prec))); [discriminate| ].
    unfold FloatFacts.uro. rewrite Rabs_pos_eq in H; [lra| ]. change (q_norm2 a) with (Bsqrt mode_NE (q_dot a a)).  rewrite En.
    pose proof (uro_half (prec := prec)). apply Rmult_le_pos; [apply sqrt_pos| ].
    unfold Rabs in Le. destruct (Rcase_abs e); lra. }
  change (B2R (Bsqrt mode_NE (q_dot a a))) with (B2R (q_norm2 a)) in En.
  set (n := B2R (q_norm2 a)) in *. set (S := sq_sum 4 (fun k => B2R (qcomp k a))) in *.
  destruct (norm_core S (B2R (q_dot a a)) n e (sq_sum_pos _ _) Le En H2 D) as (S3 & NN).
  clear D En Le e. pose proof uro_small as U. pose proof (uro_pos (prec := prec)) as P. pose proof eta_small as Et.
  pose proof (eta_pos (prec := prec) (emax := emax)) as E0.
  assert (Sp : 0 < S). { apply Rlt_le_trans with (2 := S3). apply Rmult_lt_0_compat; [lra| ]. apply pow_lt, P. }
  assert (Np : 0 < n) by lra.
  assert (T0 : (1 - 613 / 100 * uro) * (n * n) <= S <= (1 + 615 / 100 * uro) * (n * n)).
  { split.
    - apply Rle_trans with ((1 - 613 / 100 * uro) * ((1 + 612 / 100 * uro) * S)); [apply Rmult_le_compat_l; lra| ].
      rewrite <- Rmult_assoc. rewrite <- (Rmult_1_l S) at 2. apply Rmult_le_compat_r; [lra| ]. nra.
    - apply Rle_trans with ((1 + 615 / 100 * uro) * ((1 - 612 / 100 * uro) * S)); [ |apply Rmult_le_compat_l; lra].
      rewrite <- Rmult_assoc. rewrite <- (Rmult_1_l S) at 1. apply Rmult_le_compat_r; [lra| ]. nra. }
  assert (Fa : forall k, (k < 4)%nat -> is_finite (qcomp k a) = true).
  { clear - Fd. destruct a as [x0 (x1&x2&x3&[]) fa]. intros k Hk. open_q Fd.
    destruct (plus_finite _ _ Fd) as (G1 & G2 & _). destruct (plus_finite _ _ G2) as (G3 & G4 & _). destruct (plus_finite _ _ G3) as (G5 & G6 & _).
    apply mult_finite in G1, G4, G5, G6.
    destruct k as [ |[ |[ |[ |k]]]]; [apply G1|apply G5|apply G6|apply G4|lia]. }
  set (t := fun k => B2R (qcomp k a) / n).
  assert (Ts : sq_sum 4 t = S / (n * n)). { unfold t, S, sq_sum. cbn [sumn]. lazy [add mul zero R_Num]. field. lra. }
  assert (Tb : 1 - 613 / 100 * uro <= sq_sum 4 t <= 1 + 615 / 100 * uro).
  { rewrite Ts. assert (0 < n * n) by nra. assert (S / (n * n) * (n * n) = S) by (field; lra).
    split; apply (Rmult_le_reg_r (n * n)); try assumption; lra. }
  assert (T2 : forall k, (k < 4)%nat -> 0 <= t k * t k <= 11 / 10).
  { intros k Hk. split; [nra| ]. pose proof (sq_sum_ge 4 t k Hk). lra. }
  assert (Eh : eta <= / 1000 * uro).
  { assert (uro ^ 5 = uro * (uro ^ 2 * uro ^ 2)) by ring. assert (uro ^ 2 <= / 2048) by nra. assert (0 <= uro ^ 2) by nra.
    assert (uro * (uro ^ 2 * uro ^ 2) <= uro * / 4000) by (apply Rmult_le_compat_l; nra). lra. }
  assert (K : forall k, (k < 4)%nat -> is_finite (qcomp k b) = true /\
     exists e h, Rabs e <= uro /\ Rabs h <= eta /\ B k = t k * (1 + e) + h).
  { intros k Hk. unfold B. rewrite (C k Hk). apply (div_error (qcomp k a) (q_norm2 a) (Fa k Hk)); fold n; [lra| ]. fold (t k).
    specialize (T2 k Hk). apply Rabs_le. split; nra. }
  split.
  - assert (X : forall k, (k < 4)%nat -> Rabs (B k * B k - t k * t k) <= 2001 / 1000 * uro * (t k * t k) + 4 * eta).
    { intros k Hk. destruct (K k Hk) as (_ & e & h & Le & Lh & ->). apply comp_core; try assumption; [lra|apply T2, Hk|split; [lra| ]].
      assert (uro <= 1) by lra. nra. }
    pose proof (X 0%nat ltac:(lia)) as X0. pose proof (X 1%nat ltac:(lia)) as X1. pose proof (X 2%nat ltac:(lia)) as X2. pose proof (X 3%nat ltac:(lia)) as X3.
    clear X. unfold sq_sum in Tb |- *. cbn [sumn] in Tb |- *. lazy [add mul zero R_Num] in Tb |- *.
    set (b0 := B 0%nat * B 0%nat) in *. set (b1 := B 1%nat * B 1%nat) in *. set (b2 := B 2%nat * B 2%nat) in *. set (b3 := B 3%nat * B 3%nat) in *.
    set (t0 := t 0%nat * t 0%nat) in *. set (t1 := t 1%nat * t 1%nat) in *. set (t2 := t 2%nat * t 2%nat) in *. set (t3 := t 3%nat * t 3%nat) in *.
    clearbody b0 b1 b2 b3 t0 t1 t2 t3. clear - X0 X1 X2 X3 Tb Eh U P.
    replace (0 + b0 + b1 + b2 + b3 - 1) with ((b0 - t0) + (b1 - t1) + (b2 - t2) + (b3 - t3) + (0 + t0 + t1 + t2 + t3 - 1)) by ring.
    set (tt := 0 + t0 + t1 + t2 + t3) in *.
    assert (Y : Rabs (tt - 1) <= 615 / 100 * uro) by (apply Rabs_le; lra).
    eapply Rle_trans; [apply Rabs_triang| ]. 
    pose proof (Rabs_triang ((b0 - t0) + (b1 - t1) + (b2 - t2)) (b3 - t3)). pose proof (Rabs_triang ((b0 - t0) + (b1 - t1)) (b2 - t2)). pose proof (Rabs_triang (b0 - t0) (b1 - t1)).
    assert (Z : 2001 / 1000 * uro * tt <= 2001 / 1000 * uro * (11 / 10)) by (apply Rmult_le_compat_l; lra).
    unfold tt in Z. lra.
  - intros k Hk. destruct (K k Hk) as (Fk & e & h & Le & Lh & ->). split; [exact Fk| ].
    assert (Nr : 0 < N) by (apply sqrt_lt_R0, Sp). assert (NS : N * N = S) by (apply sqrt_sqrt; lra).
    set (r := N / n).
    assert (Ir : 1 - 31 / 10 * uro <= r <= 1 + 31 / 10 * uro).
    { assert (N = r * n) by (unfold r; field; lra). assert (R0 : 0 < r) by (unfold r; apply Rdiv_lt_0_compat; assumption).
      rewrite <- NS, H in T0.
      assert (I2 : 1 - 613 / 100 * uro <= r * r <= 1 + 615 / 100 * uro).
      { assert (0 < n * n) by nra. split; apply (Rmult_le_reg_r (n * n)); try assumption; lra. }
      split; [destruct (Rle_lt_dec (1 - 31 / 10 * uro) r)|destruct (Rle_lt_dec r (1 + 31 / 10 * uro))]; try assumption; exfalso; nra. }
    assert (Et' : t k = B2R (qcomp k a) / N * r) by (unfold t, r; field; lra). rewrite Et'. set (y := B2R (qcomp k a) / N). clearbody y r.
    replace (y * r * (1 + e) + h - y) with (y * (r * (1 + e) - 1) + h) by ring.
    eapply Rle_trans; [apply Rabs_triang| ]. apply Rplus_le_compat; [ |exact Lh]. rewrite Rabs_mult, Rmult_comm. apply Rmult_le_compat_r; [apply Rabs_pos| ].
    assert (Ie : - uro <= e <= uro) by (unfold Rabs in Le; destruct (Rcase_abs e); lra).
    apply Rabs_le. nra.
Qed.

(** ** no overflow *)
Definition bdm : Type := (R * nat)%type.
Definition bdm_Num : Num bdm := {|
  zero := (1, 0%nat); one := (1, 0%nat);
  add := fun '(b, d) '(b', d') => (b + b' + 1, S (d + d'));
  sub := fun '(b, d) '(b', d') => (b + b' + 1, S (d + d'));
  mul := fun '(b, d) '(b', d') => (b * b' + 1, S (d + d'));
  div := fun a b => a; eqb := fun a b => true
|}.
Definition ufin (x : fl) (t : bdm) : Prop := let '(b, d) := t in 1 <= b /\
  ((1 + uro) ^ d * b < bpow radix2 emax -> is_finite x = true /\ Rabs (B2R x) <= (1 + uro) ^ d * b).

Lemma rnd_bound z : Rabs (rnd z) <= (1 + uro) * (Rabs z + 1).
Proof.
  destruct (error_N_FLT radix2 emin prec Hp (fun z => negb (Z.even z)) z) as (e & h & Le & Lh & _ & ->).
  change (/ 2 * bpow radix2 (- prec + 1)) with (/ 2 * bpow radix2 (- prec + 1)) in Le.
  assert (Le' : Rabs e <= uro) by (unfold FloatFacts.uro; replace (1 - prec)%Z with (- prec + 1)%Z by ring; exact Le).
  assert (Lh' : Rabs h <= eta) by exact Lh. clear Le Lh.
  pose proof uro_small as U. pose proof (uro_pos (prec := prec)) as P. pose proof eta_small as Et.
  assert (uro ^ 5 <= / 100). { replace (uro ^ 5) with (uro * uro * (uro * uro) * uro) by ring. assert (0 < uro * uro <= / 100) by nra.
    assert (0 < uro * uro * (uro * uro) <= / 100) by nra. nra. }
  eapply Rle_trans; [apply Rabs_triang| ]. rewrite Rabs_mult.
  assert (Rabs (1 + e) <= 1 + uro) by (eapply Rle_trans; [apply Rabs_triang|rewrite Rabs_R1; lra]).
  assert (Rabs z * Rabs (1 + e) <= Rabs z * (1 + uro)) by (apply Rmult_le_compat_l; [apply Rabs_pos|assumption]). lra.
Qed.

Lemma ufin_sub_lt d d' b b' : 1 <= b -> 1 <= b' -> (1 + uro) ^ S (d + d') * (b + b' + 1) < bpow radix2 emax ->
  (1 + uro) ^ d * b < bpow radix2 emax /\ (1 + uro) ^ d' * b' < bpow radix2 emax.
Proof.
  intros B B' L. pose proof (pow_mono 0 d ltac:(lia) : _ <= _ <= (1 + uro) ^ d) as [_ H]. pose proof (pow_mono 0 d' ltac:(lia) : _ <= _ <= (1 + uro) ^ d') as [_ H'].
  pose proof (pow_mono d (S (d + d')) ltac:(lia) : _ <= _ <= (1 + uro) ^ S (d + d')) as [_ G]. pose proof (pow_mono d' (S (d + d')) ltac:(lia) : _ <= _ <= (1 + uro) ^ S (d + d')) as [_ G'].
  rewrite pow_O in H, H'. set (p := (1 + uro) ^ d) in *. set (p' := (1 + uro) ^ d') in *. set (P := (1 + uro) ^ S (d + d')) in *. clearbody p p' P. clear - B B' L H H' G G'.
  split; (eapply Rle_lt_trans; [ |exact L]); apply Rmult_le_compat; lra.
Qed.

Lemma sum_bnd p p' b b' z z' : 1 <= p -> 1 <= p' -> 1 <= b -> 1 <= b' -> Rabs z <= p * b -> Rabs z' <= p' * b' ->
  (1 + uro) * (Rabs (z + z') + 1) <= (1 + uro) * (p * p') * (b + b' + 1).
Proof.
  intros H H' B B' Z Z'. rewrite Rmult_assoc. apply Rmult_le_compat_l; [pose proof (uro_pos (prec := prec)); lra| ].
  pose proof (Rabs_triang z z').
  assert (1 <= p * p') by nra. assert (p <= p * p') by nra. assert (p' <= p * p') by nra.
  assert (p * b <= p * p' * b) by (apply Rmult_le_compat_r; lra). assert (p' * b' <= p * p' * b') by (apply Rmult_le_compat_r; lra). lra.
Qed.

Lemma ufin_add (x x' : fl) t t' : ufin x t -> ufin x' t' -> ufin (Bplus mode_NE x x') (add (Num := bdm_Num) t t').
Proof.
  destruct t as (b&d), t' as (b'&d'). cbn [add bdm_Num ufin]. intros (B & A) (B' & A'). split; [lra| ]. intros L.
  destruct (ufin_sub_lt d d' b b' B B' L) as [L1 L2]. destruct (A L1) as (F & C), (A' L2) as (F' & C').
  pose proof (pow_mono 0 d ltac:(lia) : _ <= _ <= (1 + uro) ^ d) as [_ H]. pose proof (pow_mono 0 d' ltac:(lia) : _ <= _ <= (1 + uro) ^ d') as [_ H'].
  rewrite pow_O in H, H'.
  pose proof (sum_bnd _ _ _ _ _ _ H H' B B' C C') as Sb. rewrite <- pow_add in Sb. change ((1 + uro) * (1 + uro) ^ (d + d')) with ((1 + uro) ^ S (d + d')) in Sb.
  pose proof (rnd_bound (B2R x + B2R x')) as Rb.
  pose proof (Bplus_correct prec emax Hp He mode_NE x x' F F') as X. rewrite Rlt_bool_true in X.
  - destruct X as (X1 & X2 & _). split; [exact X2| ]. rewrite X1. eapply Rle_trans; [exact Rb|exact Sb].
  - eapply Rle_lt_trans; [exact Rb| ]. eapply Rle_lt_trans; [exact Sb|exact L].
Qed.

Lemma ufin_opp (x : fl) t : ufin x t -> ufin (Bopp x) t.
Proof. destruct t as (b&d). unfold ufin. rewrite is_finite_Bopp, B2R_Bopp, Rabs_Ropp. auto. Qed.

Lemma ufin_sub (x x' : fl) t t' : ufin x t -> ufin x' t' -> ufin (Bminus mode_NE x x') (sub (Num := bdm_Num) t t').
Proof. intros A A'. rewrite Bminus_plus. exact (ufin_add _ _ _ _ A (ufin_opp _ _ A')). Qed.

Lemma ufin_mul (x x' : fl) t t' : ufin x t -> ufin x' t' -> ufin (Bmult mode_NE x x') (mul (Num := bdm_Num) t t').
Proof.
  destruct t as (b&d), t' as (b'&d'). cbn [mul bdm_Num ufin]. intros (B & A) (B' & A'). split; [nra| ]. intros L.
  pose proof (pow_mono 0 d ltac:(lia) : _ <= _ <= (1 + uro) ^ d) as [_ H]. pose proof (pow_mono 0 d' ltac:(lia) : _ <= _ <= (1 + uro) ^ d') as [_ H'].
  rewrite pow_O in H, H'. change ((1 + uro) ^ S (d + d')) with ((1 + uro) * (1 + uro) ^ (d + d')) in L |- *. rewrite pow_add in L |- *.
  set (p := (1 + uro) ^ d) in *. set (p' := (1 + uro) ^ d') in *. pose proof (uro_pos (prec := prec)) as U.
  clearbody p p'. assert (V : 1 <= p * b) by nra. assert (V' : 1 <= p' * b') by nra.
  assert (Pb : p * b <= p * b * (p' * b')) by nra. assert (Pb' : p' * b' <= p * b * (p' * b')) by nra.
  assert (Q : p * b * (p' * b') <= (1 + uro) * (p * p') * (b * b' + 1)).
  { replace (p * b * (p' * b')) with (p * p' * (b * b')) by ring. rewrite (Rmult_assoc (1 + uro)).
    assert (0 <= p * p') by nra. assert (0 <= p * p' * (b * b')) by (apply Rmult_le_pos; nra). nra. }
  destruct (A ltac:(lra)) as (F & C), (A' ltac:(lra)) as (F' & C').
  pose proof (rnd_bound (B2R x * B2R x')) as Rb. rewrite Rabs_mult in Rb.
  assert (S : (1 + uro) * (Rabs (B2R x) * Rabs (B2R x') + 1) <= (1 + uro) * (p * p') * (b * b' + 1)).
  { rewrite (Rmult_assoc (1 + uro)). apply Rmult_le_compat_l; [lra| ].
    assert (Rabs (B2R x) * Rabs (B2R x') <= p * b * (p' * b')) by (apply Rmult_le_compat; try assumption; apply Rabs_pos). nra. }
  pose proof (Bmult_correct prec emax Hp He mode_NE x x') as X. rewrite Rlt_bool_true in X.
  - destruct X as (X1 & X2 & _). rewrite F, F' in X2. split; [exact X2| ]. rewrite X1. eapply Rle_trans; [exact Rb|exact S].
  - eapply Rle_lt_trans; [exact Rb| ]. eapply Rle_lt_trans; [exact S|exact L].
Qed.

Lemma ufin_leaf (x : fl) b : is_finite x = true -> Rabs (B2R x) <= b -> 1 <= b -> ufin x (b, 0%nat).
Proof. intros F A B. split; [exact B| ]. intros _. split; [exact F|cbn; lra]. Qed.
Lemma ufin_one : ufin one (1, 0%nat).
Proof. change (one : fl) with (Bone : fl). apply ufin_leaf; [apply is_finite_Bone|rewrite Bone_correct, Rabs_R1; lra|lra]. Qed.

Lemma ufin_done (x : fl) t b d b' m : ufin x t -> t = (b, d) -> b <= b' -> INR d * (1 + m / 2048) <= m -> 0 <= m <= 2048 ->
  2 * b' < bpow radix2 emax -> is_finite x = true.
Proof.
  intros H E Hb Hd Hm L. subst t. destruct H as (B & A). destruct A as [F _]; [ |exact F].
  pose proof (pow_lin d m Hd ltac:(lra)) as P. pose proof uro_small as U. pose proof (uro_pos (prec := prec)) as U0.
  assert (m * uro <= 2048 * / 2048) by (apply Rmult_le_compat; lra).
  eapply Rle_lt_trans; [ |exact L]. apply Rmult_le_compat; try lra. apply pow_le. lra.
Qed.

(** ** quaternions of norm nearly one *)
Ltac ufin_go := lazymatch goal with
  | |- ufin (add _ _) _ => eapply ufin_add; ufin_go
  | |- ufin (sub _ _) _ => eapply ufin_sub; ufin_go
  | |- ufin (mul _ _) _ => eapply ufin_mul; ufin_go
  | |- ufin one _ => eapply ufin_one
  | |- _ => eassumption
  end.

Section Unit.
Context (b : Quaternion fl) (dl : R).
Let B := fun k => B2R (qcomp k b).
Hypothesis Fb : forall k, (k < 4)%nat -> is_finite (qcomp k b) = true.
Hypothesis Db : Rabs (sq_sum 4 B - 1) <= dl.
Hypothesis Dl : dl <= / 100.

Lemma unit_N : 99 / 100 <= sq_sum 4 B <= 101 / 100.
Proof. unfold Rabs in Db. destruct (Rcase_abs _) in Db; lra. Qed.
Lemma unit_comp k : (k < 4)%nat -> Rabs (B k) <= 1005 / 1000.
Proof. intros Hk. pose proof unit_N. pose proof (sq_sum_ge 4 B k Hk). apply Rabs_le. split; nra. Qed.
Lemma unit_sum : Rabs (B 0%nat) + Rabs (B 1%nat) + Rabs (B 2%nat) + Rabs (B 3%nat) <= 201 / 100.
Proof.
  pose proof unit_N as [_ H]. unfold sq_sum in H. cbn [sumn] in H. lazy [add mul zero R_Num] in H.
  assert (Q : forall x, x * x = Rabs x * Rabs x) by (intros x; rewrite <- Rabs_mult, Rabs_pos_eq; [reflexivity|nra]).
  rewrite !(Q (B _)) in H. generalize dependent (Rabs (B 0%nat)). generalize (Rabs (B 1%nat)), (Rabs (B 2%nat)), (Rabs (B 3%nat)).
  intros x1 x2 x3 x0 H. pose proof (pow2_ge_0 (x0 - x1)). pose proof (pow2_ge_0 (x0 - x2)). pose proof (pow2_ge_0 (x0 - x3)).
  pose proof (pow2_ge_0 (x1 - x2)). pose proof (pow2_ge_0 (x1 - x3)). pose proof (pow2_ge_0 (x2 - x3)).
  assert (G : (x0 + x1 + x2 + x3) * (x0 + x1 + x2 + x3) <= 4 * (101 / 100)) by lra. clear - G. nra.
Qed.
Lemma eta_tiny : eta <= / 10000 * uro.
Proof.
  pose proof uro_small as U. pose proof (uro_pos (prec := prec)) as P. pose proof eta_small as Et.
  replace (uro ^ 5) with (uro * uro * (uro * uro) * uro) in Et by ring. assert (0 < uro * uro <= / 2048) by nra.
  assert (0 < uro * uro * (uro * uro) <= / 40000) by nra. nra.
Qed.
Lemma emax_big : 2048 <= bpow radix2 emax.
Proof. change 2048 with (bpow radix2 11). apply bpow_le. lia. Qed.

Lemma unit_rot_finite i j : (i < 3)%nat -> (j < 3)%nat -> is_finite (mfun (q_to_rotation b) i j) = true.
Proof.
  intros Hi Hj. assert (L : forall k, (k < 4)%nat -> ufin (qcomp k b) (2, 0%nat)).
  { intros k Hk. apply ufin_leaf; [apply Fb, Hk| |lra]. pose proof (unit_comp k Hk). unfold B in H. lra. }
  pose proof (L 0%nat ltac:(lia)) as L0. pose proof (L 1%nat ltac:(lia)) as L1. pose proof (L 2%nat ltac:(lia)) as L2. pose proof (L 3%nat ltac:(lia)) as L3.
  clear L. pose proof emax_big as X. revert L0 L1 L2 L3. clear - X Hi Hj Hp11 He4. destruct b as [x0 (x1&x2&x3&[]) fa].
  lazy [qcomp vfun List.nth alist q0 Quat.q fst snd]. intros L0 L1 L2 L3.
  destruct i as [ |[ |[ |i]]]; [ | | |lia]; (destruct j as [ |[ |[ |j]]]; [ | | |lia]);
  lazy [q_to_rotation vfun mfun List.nth List.map alist ix0 ix1 ix2 ahd atl acons anil fst snd q0 Quat.q q_real q_imag];
  (eapply (ufin_done _ _ _ _ 100 100); [ufin_go|reflexivity|lra|cbn; lra|lra|lra]).
Qed.

Lemma unit_rot_uerr i j : (i < 3)%nat -> (j < 3)%nat -> uerr (mfun (q_to_rotation b) i j) (rot_exact B i j) (101 / 100, 4%nat, / 1000 * uro).
Proof.
  intros Hi Hj. pose proof (uro_pos (prec := prec)) as P. split; [lra|split; [lra| ]]. intros F. pose proof unit_N as N. split.
  - eapply Rle_trans; [apply rot_bound; assumption|lra].
  - pose proof (c87_to_rotation_error b i j Hi Hj F) as E. cbv zeta in E. fold (rot_exact (fun k => B2R (qcomp k b)) i j) in E. fold B in E.
    eapply Rle_trans; [exact E| ]. pose proof (pow_mono 0 4 ltac:(lia) : _ <= _ <= (1 + uro) ^ 4) as [_ P4]. rewrite pow_O in P4.
    pose proof unit_sum as S. pose proof eta_tiny as T. pose proof (eta_pos (prec := prec) (emax := emax)) as E0.
    apply Rplus_le_compat; apply Rmult_le_compat_l; try lra.
    apply Rle_trans with (7 * eta); [apply Rmult_le_compat_r; lra|lra].
Qed.
End Unit.

Lemma c87_unit_rotation : forall (b : Quaternion fl) dl, dl <= / 100 ->
  (forall k, (k < 4)%nat -> is_finite (qcomp k b) = true) -> Rabs (sq_sum 4 (fun k => B2R (qcomp k b)) - 1) <= dl ->
  let X := fun i j => B2R (mfun (q_to_rotation b) i j) in
  (forall i j, (i < 3)%nat -> (j < 3)%nat -> is_finite (mfun (q_to_rotation b) i j) = true) /\
  (forall i j, (i < 3)%nat -> (j < 3)%nat ->
    Rabs (X 0%nat i * X 0%nat j + X 1%nat i * X 1%nat j + X 2%nat i * X 2%nat j - (if Nat.eqb i j then 1 else 0)) <= 201 / 100 * dl + 25 * uro) /\
  is_finite (m33_det (q_to_rotation b)) = true /\ Rabs (B2R (m33_det (q_to_rotation b)) - 1) <= 304 / 100 * dl + 108 * uro.
Proof.
  intros b dl Dl Fb Db X. pose proof (unit_rot_finite b dl Fb Db Dl) as FR. split; [exact FR| ].
  pose proof uro_small as U. pose proof (uro_pos (prec := prec)) as P. pose proof eta_tiny as T. pose proof (eta_pos (prec := prec) (emax := emax)) as E0.
  pose proof (unit_N b dl Db Dl) as N.
  assert (D0 : 0 <= dl) by (eapply Rle_trans; [apply Rabs_pos|exact Db]).
  split.
  - intros i j Hi Hj. pose proof (c87_to_rotation_orthogonal b FR i j Hi Hj) as G. cbv zeta in G.
    eapply Rle_trans; [exact G| ]. clear G. pose proof (unit_sum b dl Db Dl) as Us.
    set (n := sq_sum 4 (fun k => B2R (qcomp k b))) in *.
    set (e := _ + _ * (_ * eta)).
    assert (Ee : 0 <= e <= 41 / 10 * uro).
    { unfold e. pose proof (pow_lin 4 (401 / 100) ltac:(cbn; lra) ltac:(lra)) as P4. pose proof (pow_mono 0 4 ltac:(lia) : _ <= _ <= (1 + uro) ^ 4) as [_ P4'].
      rewrite pow_O in P4'. set (p4 := (1 + uro) ^ 4) in *. clearbody p4.
      set (s4 := Rabs _ + _ + _ + _) in Us. replace (4 + _ + _ + _ + _) with (4 + s4) by (unfold s4; ring).
      assert (0 <= s4) by (unfold s4; repeat apply Rplus_le_le_0_compat; apply Rabs_pos). clearbody s4 n. clear e Db.
      assert (A1 : 0 <= (p4 - 1) * n <= 401 / 100 * uro * (101 / 100)) by (split; [apply Rmult_le_pos; lra|apply Rmult_le_compat; lra]).
      assert (A2 : 0 <= (4 + s4) * eta <= 7 * eta) by (split; [apply Rmult_le_pos; lra|apply Rmult_le_compat_r; lra]).
      assert (A3 : 0 <= p4 * ((4 + s4) * eta) <= 2 * (7 * eta)) by (split; [apply Rmult_le_pos; lra|apply Rmult_le_compat; lra]). lra. }
    clearbody e.
    assert (A : Rabs (n ^ 2 - 1) <= 201 / 100 * dl).
    { replace (n ^ 2 - 1) with ((n - 1) * (n + 1)) by ring. rewrite Rabs_mult, Rmult_comm, (Rabs_pos_eq (n + 1)) by lra. apply Rmult_le_compat; try lra. apply Rabs_pos. }
    assert (2 * n * e <= 2 * (101 / 100) * (41 / 10 * uro)) by (apply Rmult_le_compat; lra).
    assert (e * e <= 41 / 10 * uro * / 100) by (apply Rmult_le_compat; lra). lra.
  - assert (FD : is_finite (m33_det (q_to_rotation b)) = true).
    { assert (L : forall i j, (i < 3)%nat -> (j < 3)%nat -> ufin (mfun (q_to_rotation b) i j) (2, 0%nat)).
      { intros i j Hi Hj. apply ufin_leaf; [apply FR; assumption| |lra].
        destruct (unit_rot_uerr b dl Db Dl i j Hi Hj) as (_ & _ & E). destruct (E (FR i j Hi Hj)) as (E1 & E2).
        pose proof (pow_lin 4 (401 / 100) ltac:(cbn; lra) ltac:(lra)) as P4. pose proof (pow_mono 0 4 ltac:(lia) : _ <= _ <= (1 + uro) ^ 4) as [_ P4'].
        rewrite pow_O in P4'. set (p4 := (1 + uro) ^ 4) in *. clearbody p4. set (x := B2R _) in *. set (r := rot_exact _ i j) in *. clearbody x r.
        replace x with ((x - r) + r) by ring. eapply Rle_trans; [apply Rabs_triang| ].
        assert (p4 * (/ 1000 * uro) <= 2 * (/ 1000 * uro)) by (apply Rmult_le_compat_r; lra). lra. }
      pose proof (emax_big) as XB. clear - L XB Hp11 He4. set (M := q_to_rotation b) in *. clearbody M.
      destruct M as ((m00&m01&m02&[])&(m10&m11&m12&[])&(m20&m21&m22&[])&[]).
      pose proof (L 0 0 ltac:(lia) ltac:(lia))%nat as L00. pose proof (L 0 1 ltac:(lia) ltac:(lia))%nat as L01. pose proof (L 0 2 ltac:(lia) ltac:(lia))%nat as L02.
      pose proof (L 1 0 ltac:(lia) ltac:(lia))%nat as L10. pose proof (L 1 1 ltac:(lia) ltac:(lia))%nat as L11. pose proof (L 1 2 ltac:(lia) ltac:(lia))%nat as L12.
      pose proof (L 2 0 ltac:(lia) ltac:(lia))%nat as L20. pose proof (L 2 1 ltac:(lia) ltac:(lia))%nat as L21. pose proof (L 2 2 ltac:(lia) ltac:(lia))%nat as L22.
      clear L. lazy [vfun mfun List.nth List.map alist fst snd] in L00, L01, L02, L10, L11, L12, L20, L21, L22.
      lazy [m33_det ix0 ix1 ix2 ahd atl fst snd].
      eapply (ufin_done _ _ _ _ 200 100); [ufin_go|reflexivity|lra|cbn; lra|lra|lra]. }
    split; [exact FD| ].
    pose proof (unit_rot_uerr b dl Db Dl) as L. set (B := fun k => B2R (qcomp k b)) in *.
    assert (R3 : exists t, uerr (m33_det (q_to_rotation b)) (sq_sum 4 B ^ 3) t /\ t = (6 * (101 / 100) ^ 3, 17%nat, snd t) /\ snd t <= 21 / 100 * uro).
    { set (M := q_to_rotation b) in *. clearbody M. clear FR FD X.
      destruct M as ((m00&m01&m02&[])&(m10&m11&m12&[])&(m20&m21&m22&[])&[]).
      pose proof (L 0 0 ltac:(lia) ltac:(lia))%nat as L00. pose proof (L 0 1 ltac:(lia) ltac:(lia))%nat as L01. pose proof (L 0 2 ltac:(lia) ltac:(lia))%nat as L02.
      pose proof (L 1 0 ltac:(lia) ltac:(lia))%nat as L10. pose proof (L 1 1 ltac:(lia) ltac:(lia))%nat as L11. pose proof (L 1 2 ltac:(lia) ltac:(lia))%nat as L12.
      pose proof (L 2 0 ltac:(lia) ltac:(lia))%nat as L20. pose proof (L 2 1 ltac:(lia) ltac:(lia))%nat as L21. pose proof (L 2 2 ltac:(lia) ltac:(lia))%nat as L22.
      clear L. lazy [vfun mfun List.nth List.map alist fst snd] in L00, L01, L02, L10, L11, L12, L20, L21, L22.
      lazy [m33_det ix0 ix1 ix2 ahd atl fst snd].
      pose proof (uerr_add _ _ _ _ _ _ (uerr_sub _ _ _ _ _ _
         (uerr_mul _ _ _ _ _ _ L00 (uerr_sub _ _ _ _ _ _ (uerr_mul _ _ _ _ _ _ L11 L22) (uerr_mul _ _ _ _ _ _ L21 L12)))
         (uerr_mul _ _ _ _ _ _ L01 (uerr_sub _ _ _ _ _ _ (uerr_mul _ _ _ _ _ _ L10 L22) (uerr_mul _ _ _ _ _ _ L12 L20))))
         (uerr_mul _ _ _ _ _ _ L02 (uerr_sub _ _ _ _ _ _ (uerr_mul _ _ _ _ _ _ L10 L21) (uerr_mul _ _ _ _ _ _ L11 L20)))) as D.
      eexists. split; [ |split].
      - match type of D with uerr _ ?r _ => assert (Er : r = sq_sum 4 B ^ 3) end; [ |rewrite <- Er; exact D].
        clearbody B. clear. lazy [rot_exact hamilton h4 h4conj comp4 e4 sq_sum sumn add sub mul one zero R_Num]. ring.
      - lazy [add sub mul bdu_Num snd Nat.max Nat.add]. f_equal. f_equal. field.
      - lazy [add sub mul bdu_Num snd]. set (w := / 1000 * uro).
        assert (w * w <= / 1000 * w) by (unfold w; nra). assert (0 < w) by (unfold w; lra).
        assert (eta <= / 10 * w) by (unfold w; lra). set (c := 101 / 100).
        set (g := c * w + c * w + w * w + eta).
        assert (0 <= w * w) by nra. assert (Hg : 0 <= g <= 22 / 10 * w) by (unfold g, c; lra). clearbody g.
        assert (w * (g + g) <= / 1000 * (44 / 10 * w)) by (unfold w in *; apply Rmult_le_compat; lra).
        unfold c. unfold w in *. lra. }
    destruct R3 as (t & D & Et & Ht). rewrite Et in D. destruct D as (_ & _ & D). destruct (D FD) as (_ & D2). clear D Et.
    pose proof (pow_lin 17 (172 / 10) ltac:(cbn; lra) ltac:(lra)) as PL. pose proof (pow_mono 0 17 ltac:(lia) : _ <= _ <= (1 + uro) ^ 17) as [_ PL'].
    rewrite pow_O in PL'. set (p := (1 + uro) ^ 17) in *. clearbody p. set (n := sq_sum 4 B) in *.
    assert (N3 : Rabs (n ^ 3 - 1) <= 304 / 100 * dl).
    { replace (n ^ 3 - 1) with ((n - 1) * (n * n + n + 1)) by ring. rewrite Rabs_mult, Rmult_comm, (Rabs_pos_eq (n * n + n + 1)) by nra.
      apply Rmult_le_compat; try nra. apply Rabs_pos. }
    clear X FR FD L. generalize dependent (B2R (m33_det (q_to_rotation b))). intros x D2. clearbody n.
    replace (x - 1) with ((x - n ^ 3) + (n ^ 3 - 1)) by ring. eapply Rle_trans; [apply Rabs_triang| ].
    assert (p * snd t <= 2 * (21 / 100 * uro)). { destruct (Rle_lt_dec (snd t) 0); [apply Rle_trans with 0; [nra|lra]|apply Rmult_le_compat; lra]. }
    assert ((p - 1) * (6 * (101 / 100) ^ 3) <= 172 / 10 * uro * (6 * (101 / 100) ^ 3)) by (apply Rmult_le_compat_r; lra). lra.
Qed.

(** ** rotating a vector keeps its length *)
Lemma sq_sum3 f : sq_sum 3 f = f 0%nat * f 0%nat + f 1%nat * f 1%nat + f 2%nat * f 2%nat.
Proof. unfold sq_sum. cbn [sumn]. lazy [add mul zero R_Num]. ring. Qed.
Lemma mag3_norm f : mag3 f <= 17321 / 10000 * sqrt (sq_sum 3 f).
Proof.
  pose proof (sqrt_sqrt _ (sq_sum_pos 3 f)) as Q. pose proof (sqrt_pos (sq_sum 3 f)) as P. rewrite sq_sum3 in *. set (r := sqrt _) in *. clearbody r.
  assert (A : forall x, x * x = Rabs x * Rabs x) by (intros x; rewrite <- Rabs_mult, Rabs_pos_eq; [reflexivity|nra]). rewrite !(A (f _)) in Q.
  unfold mag3. pose proof (Rabs_pos (f 0%nat)). pose proof (Rabs_pos (f 1%nat)). pose proof (Rabs_pos (f 2%nat)).
  generalize dependent (Rabs (f 0%nat)). generalize dependent (Rabs (f 1%nat)). generalize dependent (Rabs (f 2%nat)). intros z Hz y Hy x Q Hx.
  assert (G : (x + y + z) * (x + y + z) <= 3 * (r * r)).
  { pose proof (pow2_ge_0 (x - y)). pose proof (pow2_ge_0 (x - z)). pose proof (pow2_ge_0 (y - z)). lra. }
  apply Rsqr_incr_0; [unfold Rsqr|lra|lra]. assert (0 <= r * r) by nra. lra.
Qed.
Lemma norm3_close f g E : 0 <= E -> (forall k, (k < 3)%nat -> Rabs (f k - g k) <= E) ->
  sqrt (sq_sum 3 f) <= sqrt (sq_sum 3 g) + 17321 / 10000 * E.
Proof.
  intros HE H. pose proof (mag3_norm g) as M. pose proof (sqrt_sqrt _ (sq_sum_pos 3 g)) as Q. pose proof (sqrt_pos (sq_sum 3 g)) as P.
  set (r := sqrt (sq_sum 3 g)) in *. clearbody r. apply Rsqr_incr_0; [ |apply sqrt_pos|lra]. rewrite Rsqr_sqrt by apply sq_sum_pos. unfold Rsqr.
  rewrite sq_sum3 in *. unfold mag3 in M.
  assert (K : forall k, (k < 3)%nat -> f k * f k <= g k * g k + 2 * E * Rabs (g k) + E * E).
  { intros k Hk. specialize (H k Hk). assert (Rabs (f k) <= Rabs (g k) + E).
    { replace (f k) with ((f k - g k) + g k) by ring. eapply Rle_trans; [apply Rabs_triang|lra]. }
    assert (A : forall x, x * x = Rabs x * Rabs x) by (intros x; rewrite <- Rabs_mult, Rabs_pos_eq; [reflexivity|nra]). rewrite (A (f k)), (A (g k)).
    pose proof (Rabs_pos (f k)). pose proof (Rabs_pos (g k)). nra. }
  pose proof (K 0%nat ltac:(lia)) as K0. pose proof (K 1%nat ltac:(lia)) as K1. pose proof (K 2%nat ltac:(lia)) as K2.
  assert (2 * E * (Rabs (g 0%nat) + Rabs (g 1%nat) + Rabs (g 2%nat)) <= 2 * E * (17321 / 10000 * r)) by (apply Rmult_le_compat_l; lra).
  assert (0 <= E * E) by nra. lra.
Qed.

Lemma rot_length w u v : sq_sum 3 (rotR w u v) = sq_sum 3 v + 4 * sq_sum 3 (crossR u v) * (w * w + sq_sum 3 u - 1).
Proof. rewrite !sq_sum3. lazy [rotR crossR Nat.modulo Nat.divmod Nat.add Nat.sub fst snd]. ring. Qed.
Lemma cross_le u v : sq_sum 3 (crossR u v) <= sq_sum 3 u * sq_sum 3 v.
Proof.
  rewrite !sq_sum3. lazy [crossR Nat.modulo Nat.divmod Nat.add Nat.sub fst snd].
  pose proof (pow2_ge_0 (u 0%nat * v 0%nat + u 1%nat * v 1%nat + u 2%nat * v 2%nat)). lra.
Qed.
Lemma rot_length_close w u v dl : Rabs (w * w + sq_sum 3 u - 1) <= dl -> dl <= / 100 ->
  Rabs (sqrt (sq_sum 3 (rotR w u v)) - sqrt (sq_sum 3 v)) <= 206 / 100 * dl * sqrt (sq_sum 3 v).
Proof.
  intros H L. pose proof (rot_length w u v) as E. pose proof (cross_le u v) as C.
  pose proof (sq_sum_pos 3 (crossR u v)) as C0. pose proof (sq_sum_pos 3 (rotR w u v)) as R0. pose proof (sq_sum_pos 3 v) as V0. pose proof (sq_sum_pos 3 u) as U0.
  pose proof (sqrt_sqrt _ R0) as Qr. pose proof (sqrt_sqrt _ V0) as Qv. pose proof (sqrt_pos (sq_sum 3 (rotR w u v))) as Pr. pose proof (sqrt_pos (sq_sum 3 v)) as Pv.
  set (r := sqrt (sq_sum 3 (rotR w u v))) in *. set (n := sqrt (sq_sum 3 v)) in *. clearbody r n. rewrite <- Qr, <- Qv in E. rewrite <- Qv in C.
  set (c := sq_sum 3 (crossR u v)) in *. set (s := sq_sum 3 u) in *. clearbody c s. clear Qr Qv R0 V0.
  assert (D0 : 0 <= dl) by (eapply Rle_trans; [apply Rabs_pos|exact H]).
  set (d := w * w + s - 1) in *. assert (S1 : s <= 101 / 100). { unfold d, Rabs in H. destruct (Rcase_abs _) in H; nra. } clearbody d.
  assert (Cn : c <= 101 / 100 * (n * n)) by (eapply Rle_trans; [exact C|apply Rmult_le_compat_r; nra]).
  assert (X : Rabs (r * r - n * n) <= 404 / 100 * dl * (n * n)).
  { replace (r * r - n * n) with (4 * c * d) by lra. rewrite Rabs_mult, (Rabs_pos_eq (4 * c)) by lra.
    apply Rle_trans with (4 * (101 / 100 * (n * n)) * dl); [ |lra]. apply Rmult_le_compat; try lra. apply Rabs_pos. }
  destruct (Req_dec n 0) as [Z|Z].
  - subst n. rewrite Rmult_0_r in X |- *. rewrite Rmult_0_r, Rminus_0_r in X. assert (r * r = 0) by (pose proof (Rabs_pos (r * r)); unfold Rabs in X; destruct (Rcase_abs _) in X; nra).
    assert (r = 0) by nra. subst r. rewrite Rminus_0_r, Rabs_R0. lra.
  - assert (0 < n) by lra. assert (R97 : 97 / 100 * n <= r).
    { apply Rsqr_incr_0; [unfold Rsqr|lra|lra]. assert (404 / 100 * dl * (n * n) <= 404 / 100 * / 100 * (n * n)) by (apply Rmult_le_compat_r; nra).
      assert (0 < n * n) by nra. unfold Rabs in X. destruct (Rcase_abs _) in X; lra. }
    replace (r * r - n * n) with ((r - n) * (r + n)) in X by ring. rewrite Rabs_mult, (Rabs_pos_eq (r + n)) in X by lra.
    pose proof (Rabs_pos (r - n)) as P. set (y := Rabs (r - n)) in *. clearbody y.
    assert (y * (197 / 100 * n) <= y * (r + n)) by (apply Rmult_le_compat_l; lra).
    apply (Rmult_le_reg_r n); [assumption| ]. assert (0 <= dl * (n * n)) by (apply Rmult_le_pos; nra). lra.
Qed.

Lemma c87_rotate_length : forall (b : Quaternion fl) (v : V3 fl) dl, dl <= / 100 ->
  (forall k, (k < 4)%nat -> is_finite (qcomp k b) = true) -> Rabs (sq_sum 4 (fun k => B2R (qcomp k b)) - 1) <= dl ->
  (forall k, (k < 3)%nat -> is_finite (vfun v k) = true /\ Rabs (B2R (vfun v k)) <= bpow radix2 (emax - 9)) ->
  let n := sqrt (sq_sum 3 (fun k => B2R (vfun v k))) in
  (forall k, (k < 3)%nat -> is_finite (vfun (q_mul_v b v) k) = true) /\
  Rabs (sqrt (sq_sum 3 (fun k => B2R (vfun (q_mul_v b v) k))) - n) <= (206 / 100 * dl + 192 * uro) * n + 13 * eta.
Proof.
  intros b v dl Dl Fb Db Hv n.
  assert (FR : forall k, (k < 3)%nat -> is_finite (vfun (q_mul_v b v) k) = true).
  { assert (L : forall k, (k < 4)%nat -> ufin (qcomp k b) (2, 0%nat)).
    { intros k Hk. apply ufin_leaf; [apply Fb, Hk| |lra]. pose proof (unit_comp b dl Db Dl k Hk). lra. }
    set (M := bpow radix2 (emax - 9)) in *. assert (M1 : 1 <= M) by (change 1 with (bpow radix2 0); apply bpow_le; lia).
    assert (M2 : bpow radix2 emax = 512 * M) by (unfold M; change 512 with (bpow radix2 9); rewrite <- bpow_plus; f_equal; ring).
    assert (W : forall k, (k < 3)%nat -> ufin (vfun v k) (M, 0%nat)) by (intros k Hk; apply ufin_leaf; try apply Hv; assumption).
    pose proof (L 0%nat ltac:(lia)) as L0. pose proof (L 1%nat ltac:(lia)) as L1. pose proof (L 2%nat ltac:(lia)) as L2. pose proof (L 3%nat ltac:(lia)) as L3.
    pose proof (W 0%nat ltac:(lia)) as W0. pose proof (W 1%nat ltac:(lia)) as W1. pose proof (W 2%nat ltac:(lia)) as W2.
    clear L W. revert L0 L1 L2 L3 W0 W1 W2. clearbody M. clear - M1 M2 Hp11 He4. destruct b as [x0 (x1&x2&x3&[]) fa], v as (y1&y2&y3&[]).
    lazy [qcomp vfun List.nth alist q0 Quat.q fst snd]. intros L0 L1 L2 L3 W0 W1 W2 k Hk.
    destruct k as [ |[ |[ |i]]]; [ | | |lia];
    lazy [q_mul_v v3_add v3_scale v3_cross vfun List.nth List.map alist ix0 ix1 ix2 ahd atl acons anil fst snd q0 Quat.q];
    (eapply (ufin_done _ _ _ _ (128 * M) 100); [ufin_go|reflexivity|lra|cbn; lra|lra|lra]). }
  split; [exact FR| ].
  set (w := B2R (q0 b)). set (u := fun k => B2R (vfun (Quat.q b) k)). set (V := fun k => B2R (vfun v k)) in *. set (X := fun k => B2R (vfun (q_mul_v b v) k)).
  assert (Dw : Rabs (w * w + sq_sum 3 u - 1) <= dl).
  { replace (w * w + sq_sum 3 u) with (sq_sum 4 (fun k => B2R (qcomp k b))); [exact Db| ]. unfold sq_sum, w, u. cbn [sumn qcomp]. lazy [add mul zero R_Num]. ring. }
  pose proof (rot_length_close w u V dl Dw Dl) as RL. fold n in RL.
  pose proof (unit_sum b dl Db Dl) as Us. change (Rabs w + Rabs (u 0%nat) + Rabs (u 1%nat) + Rabs (u 2%nat) <= 201 / 100) in Us.
  pose proof (mag3_norm V) as Mv. fold n in Mv. assert (N0 : 0 <= n) by apply sqrt_pos.
  pose proof uro_small as U. pose proof (uro_pos (prec := prec)) as P. pose proof eta_tiny as T. pose proof (eta_pos (prec := prec) (emax := emax)) as E0.
  assert (C : forall k, (k < 3)%nat -> Rabs (X k - rotR w u V k) <= 1107 / 10 * uro * n + 71 / 10 * eta).
  { intros k Hk. eapply Rle_trans; [exact (c87_q_mul_v_error b v k Hk (FR k Hk))| ]. fold w u V.
    pose proof (pow_lin 7 (703 / 100) ltac:(cbn; lra) ltac:(lra)) as P7. pose proof (pow_mono 0 7 ltac:(lia) : _ <= _ <= (1 + uro) ^ 7) as [_ P7'].
    rewrite pow_O in P7'. set (p := (1 + uro) ^ 7) in *. clearbody p.
    set (s := Rabs w + mag3 u). assert (Hs : 0 <= s <= 201 / 100).
    { unfold s, mag3. split; [ |lra]. repeat apply Rplus_le_le_0_compat; apply Rabs_pos. } clearbody s.
    assert (M0 : 0 <= mag3 V) by (unfold mag3; repeat apply Rplus_le_le_0_compat; apply Rabs_pos).
    set (m := mag3 V) in *. clearbody m n. clear RL Dw Us FR.
    assert (S2 : 0 <= 1 + 2 * s ^ 2 <= 909 / 100) by nra.
    assert (A1 : 0 <= m * (1 + 2 * s ^ 2) <= 17321 / 10000 * n * (909 / 100)) by (split; [apply Rmult_le_pos; lra|apply Rmult_le_compat; lra]).
    assert (A2 : (p - 1) * (m * (1 + 2 * s ^ 2)) <= 703 / 100 * uro * (17321 / 10000 * n * (909 / 100))) by (apply Rmult_le_compat; lra).
    assert (A3 : 0 <= s * (2 + m) <= 201 / 100 * (2 + 17321 / 10000 * n)) by (split; [apply Rmult_le_pos; lra|apply Rmult_le_compat; lra]).
    assert (A4 : 0 <= (s * (2 + m) + 3) * eta <= (201 / 100 * (2 + 17321 / 10000 * n) + 3) * eta) by (split; [apply Rmult_le_pos; lra|apply Rmult_le_compat_r; lra]).
    assert (A5 : p * ((s * (2 + m) + 3) * eta) <= 1004 / 1000 * ((201 / 100 * (2 + 17321 / 10000 * n) + 3) * eta)) by (apply Rmult_le_compat; lra).
    assert (A6 : n * eta <= n * (/ 10000 * uro)) by (apply Rmult_le_compat_l; lra). assert (0 <= uro * n) by (apply Rmult_le_pos; lra). lra. }
  set (E := 1107 / 10 * uro * n + 71 / 10 * eta) in *. assert (HE : 0 <= E) by (eapply Rle_trans; [apply Rabs_pos|exact (C 0%nat ltac:(lia))]).
  pose proof (norm3_close X (rotR w u V) E HE C) as K1.
  assert (C' : forall k, (k < 3)%nat -> Rabs (rotR w u V k - X k) <= E) by (intros k Hk; rewrite Rabs_minus_sym; apply C, Hk).
  pose proof (norm3_close (rotR w u V) X E HE C') as K2.
  set (x := sqrt (sq_sum 3 X)) in *. set (r := sqrt (sq_sum 3 (rotR w u V))) in *. clearbody x r. clear C C' FR.
  replace (x - n) with ((x - r) + (r - n)) by ring. eapply Rle_trans; [apply Rabs_triang| ].
  assert (Rabs (x - r) <= 17321 / 10000 * E) by (apply Rabs_le; lra). unfold E in *.
  assert (0 <= uro * n) by (apply Rmult_le_pos; lra). lra.
Qed.

(** normalizing a quaternion that was not normalized gives a rotation, up to a few roundings *)
Lemma c87_normalized_rotation : forall (a b : Quaternion fl), normalized a = false -> is_finite (q_norm2 a) = true -> q_normalize a = Some b ->
  let X := fun i j => B2R (mfun (q_to_rotation b) i j) in
  (forall i j, (i < 3)%nat -> (j < 3)%nat -> is_finite (mfun (q_to_rotation b) i j) = true /\
    Rabs (X 0%nat i * X 0%nat j + X 1%nat i * X 1%nat j + X 2%nat i * X 2%nat j - (if Nat.eqb i j then 1 else 0)) <= 44 * uro) /\
  is_finite (m33_det (q_to_rotation b)) = true /\ Rabs (B2R (m33_det (q_to_rotation b)) - 1) <= 136 * uro /\
  (forall v : V3 fl, (forall k, (k < 3)%nat -> is_finite (vfun v k) = true /\ Rabs (B2R (vfun v k)) <= bpow radix2 (emax - 9)) ->
    let n := sqrt (sq_sum 3 (fun k => B2R (vfun v k))) in
    (forall k, (k < 3)%nat -> is_finite (vfun (q_mul_v b v) k) = true) /\
    Rabs (sqrt (sq_sum 3 (fun k => B2R (vfun (q_mul_v b v) k))) - n) <= 211 * uro * n + 13 * eta).
Proof.
  intros a b Hn F E X. destruct (c87_normalize a b Hn F E) as (D & C). cbv zeta in D.
  pose proof uro_small as U. pose proof (uro_pos (prec := prec)) as P. assert (D1 : 9 * uro <= / 100) by lra.
  assert (Fb : forall k, (k < 4)%nat -> is_finite (qcomp k b) = true) by (intros k Hk; apply C, Hk). clear C.
  destruct (c87_unit_rotation b (9 * uro) D1 Fb D) as (R1 & R2 & R3 & R4). cbv zeta in R2.
  split; [ |split; [exact R3|split]].
  - intros i j Hi Hj. split; [apply R1; assumption| ]. eapply Rle_trans; [exact (R2 i j Hi Hj)|lra].
  - eapply Rle_trans; [exact R4|lra].
  - intros v Hv n. destruct (c87_rotate_length b v (9 * uro) D1 Fb D Hv) as (L1 & L2). cbv zeta in L2. fold n in L2. split; [exact L1| ].
    eapply Rle_trans; [exact L2| ]. assert (0 <= uro * n) by (apply Rmult_le_pos; [lra|apply sqrt_pos]). lra.
Qed.
End F.

(** ** Concrete cases (f64) *)
#[local] Instance prec53 : Prec_gt_0 53 := eq_refl.
#[local] Instance emax1024 : Prec_lt_emax 53 1024 := eq_refl.
#[local] Notation f64 := (binary_float 53 1024).

Lemma q_normalize_some {O : FOracle f64} (a : Quaternion f64) : normalized a = false -> nearly_zero (q_norm2 a) = false ->
  q_normalize a = Some (let r := q_div_s a (q_norm2 a) in mkQ (q0 r) (Quat.q r) true).
Proof. intros N Z. unfold q_normalize. rewrite N, Z. reflexivity. Qed.

(** the quarter turn about z meets the hypotheses of the bounds *)
Example C87_case : forall O : FOracle f64, exists b : Quaternion f64, q_normalize (q_new (fofZ 1) [| fofZ 0; fofZ 0; fofZ 1 |] : Quaternion f64) = Some b /\
  Rabs (B2R (m33_det (q_to_rotation b)) - 1) <= / 10 ^ 13.
Proof.
  intros O. eexists. split; [apply q_normalize_some; [reflexivity|vm_compute; reflexivity]| ].
  match goal with |- context [q_to_rotation ?b] => set (c := b) end.
  assert (F : is_finite (q_norm2 (q_new (fofZ 1) [| fofZ 0; fofZ 0; fofZ 1 |] : Quaternion f64)) = true) by (vm_compute; reflexivity).
  destruct (c87_normalized_rotation (prec := 53) (emax := 1024) ltac:(lia) ltac:(lia) (q_new (fofZ 1) [| fofZ 0; fofZ 0; fofZ 1 |]) c eq_refl F) as (_ & _ & D & _).
  { apply q_normalize_some; [reflexivity|vm_compute; reflexivity]. }
  eapply Rle_trans; [exact D| ]. unfold FloatFacts.uro. change (bpow radix2 (1 - 53)) with (/ 4503599627370496). lra.
Qed.

(** a product that underflows: the computed cross product is 0, the exact one 2^-1200, within the bound *)
Example C87_underflow_case : forall O : FOracle f64,
  let a := [| p2 (-600); fofZ 0; fofZ 0 |] : V3 f64 in let b := [| fofZ 0; p2 (-600); fofZ 0 |] : V3 f64 in
  B2R (vfun (v3_cross a b) 2) = 0 /\
  Rabs (0 - crossR (fun i => B2R (vfun a i)) (fun i => B2R (vfun b i)) 2)
  <= ((1 + uro (prec := 53)) ^ 2 - 1) * (Rabs (B2R (p2 (-600)) * B2R (p2 (-600))) + Rabs (0 * 0)) + (1 + uro (prec := 53)) ^ 2 * (2 * eta (prec := 53) (emax := 1024)).
Proof.
  intros O a b. assert (E : vfun (v3_cross a b) 2 = B754_zero false) by (apply B2SF_inj; vm_compute; reflexivity).
  rewrite E. split; [reflexivity| ].
  pose proof (c87_cross_error a b 2 ltac:(lia)) as H. rewrite E in H. exact (H eq_refl).
Qed.

(** a quaternion product, a rotated vector and a rotation matrix whose components are finite *)
Example C87_products_case : forall O : FOracle f64, let a := q_new (fofZ 1) [| fofZ 2; fofZ 3; fofZ 4 |] : Quaternion f64 in
  let v := [| fofZ 5; fofZ 6; fofZ 7 |] : V3 f64 in
  (forall c, (c < 4)%nat -> is_finite (qcomp c (q_mul a a)) = true) /\ (forall k, (k < 3)%nat -> is_finite (vfun (q_mul_v a v) k) = true) /\
  (forall i j, (i < 3)%nat -> (j < 3)%nat -> is_finite (mfun (q_to_rotation a) i j) = true).
Proof.
  intros O a v. split; [intros c Hc; all_lt c Hc; vm_compute; reflexivity|split; [intros c Hc; all_lt c Hc; vm_compute; reflexivity| ]].
  intros i j Hi Hj. all_lt i Hi; all_lt j Hj; vm_compute; reflexivity.
Qed.
