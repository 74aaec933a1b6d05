(** * ProofsFloatRotH: the tests for rotations on floats (C88) *)

From Coq Require Import List Arith ZArith Reals Bool Lra Lia.
From Flocq Require Import Core Relative Sterbenz IEEE754.BinarySingleNaN.
From Verif Require Import Base Scalar Vec Mat2 Mat3 Mat4 Mat5 Mat6 Slices MatLoops MatOps Quat Transf RingDet Spec LoopFacts Entries InstZ InstR RFacts ProofsRing ProofsQuat InstF FloatFacts ProofsFloat ProofsFloat2 RelFacts ProofsFloatErr ProofsFloatNorm ProofsFloatRot.
Local Open Scope R_scope.

(** products of 4x4 matrices respect a relation that the operations respect *)
Section RelMul.
Context {T1 T2 T3 : Type} {N1 : Num T1} {N2 : Num T2} {N3 : Num T3} (rel : T1 -> T2 -> T3 -> Prop).
Hypothesis rel_add : forall a a' b b' c c', rel a b c -> rel a' b' c' -> rel (add a a') (add b b') (add c c').
Hypothesis rel_mul : forall a a' b b' c c', rel a b c -> rel a' b' c' -> rel (mul a a') (mul b b') (mul c c').
Ltac rel_go := lazymatch goal with
  | |- rel (add _ _) _ _ => refine (rel_add _ _ _ _ _ _ _ _); rel_go
  | |- rel (mul _ _) _ _ => refine (rel_mul _ _ _ _ _ _ _ _); rel_go
  | |- _ => assumption
  end.
Lemma rel_mul4 (x y : M44 T1) (n m : M44 T2) (b c : M44 T3) : rel_mat rel 4 4 x n b -> rel_mat rel 4 4 y m c ->
  rel_mat rel 4 4 (m44_mul x y) (m44_mul n m) (m44_mul b c).
Proof.
  cbn in x, y, n, m, b, c. repeat match goal with H : (_ * _)%type |- _ => destruct H end. repeat match goal with H : unit |- _ => destruct H end.
  intros H H'. cbn in H, H'. repeat match goal with H : _ /\ _ |- _ => destruct H end.
  lazy beta iota zeta delta [m44_mul ix0 ix1 ix2 ix3 ix4 ix5 ahd atl acons anil fst snd rel_mat rel_row].
  repeat match goal with |- _ /\ _ => split | |- True => exact I end; rel_go.
Qed.
End RelMul.

Lemma det4 {T} {nT : Num T} (s : M44 T) : d_det D4 s = m44_det s.
Proof. reflexivity. Qed.

Section F.
Context {prec emax : Z} {Hp : Prec_gt_0 prec} {He : Prec_lt_emax prec emax} {O : FOracle (binary_float prec emax)}.
Notation fl := (binary_float prec emax).
Notation emin := (3 - emax - prec)%Z.
Notation fe := (FLT_exp emin prec).
Notation rnd := (round radix2 fe ZnearestE).
Notation uro := (uro (prec := prec)).
Notation eta := (eta (prec := prec) (emax := emax)).

(** ** errors that know which operands are exactly zero *)
Definition bdz : Type := option bdu.
Definition bdz_Num : Num bdz := {|
  zero := None; one := Some (1, 0%nat, 0);
  add := fun a b => match a, b with None, t => t | t, None => t | Some a, Some b => Some (add (Num := bdu_Num (prec := prec) (emax := emax)) a b) end;
  sub := fun a b => match a, b with None, t => t | t, None => t | Some a, Some b => Some (add (Num := bdu_Num (prec := prec) (emax := emax)) a b) end;
  mul := fun a b => match a, b with Some a, Some b => Some (mul (Num := bdu_Num (prec := prec) (emax := emax)) a b) | _, _ => None end;
  div := fun a b => a; eqb := fun a b => true
|}.
#[local] Existing Instance bdz_Num.
Definition zerr (x : fl) (r : R) (t : bdz) : Prop :=
  match t with None => r = 0 /\ (is_finite x = true -> B2R x = 0) | Some t => uerr x r t end.

Lemma rnd_val (x : fl) : rnd (B2R x) = B2R x.
Proof. apply round_generic; [apply valid_rnd_N|apply (generic_format_B2R prec emax)]. Qed.

Lemma zerr_add x x' r r' t t' : zerr x r t -> zerr x' r' t' -> zerr (add x x') (add r r') (add t t').
Proof.
  destruct t as [t| ], t' as [t'| ]; cbn [zerr add bdz_Num].
  - apply uerr_add.
  - destruct t as ((b&d)&h). intros (B0 & H0 & A) (-> & Z). split; [exact B0|split; [exact H0| ]]. cbn [add F_Num R_Num]. intros F.
    destruct (plus_finite x x' F) as (F1 & F2 & V). rewrite V, (Z F2), !Rplus_0_r, rnd_val. apply A, F1.
  - destruct t' as ((b&d)&h). intros (-> & Z) (B0 & H0 & A). split; [exact B0|split; [exact H0| ]]. cbn [add F_Num R_Num]. intros F.
    destruct (plus_finite x x' F) as (F1 & F2 & V). rewrite V, (Z F1), !Rplus_0_l, rnd_val. apply A, F2.
  - intros (-> & Z) (-> & Z'). split; [apply Rplus_0_l| ]. cbn [add F_Num]. intros F. destruct (plus_finite x x' F) as (F1 & F2 & V).
    rewrite V, (Z F1), (Z' F2), Rplus_0_l. apply round_0, valid_rnd_N.
Qed.

Lemma zerr_opp x r t : zerr x r t -> zerr (Bopp x) (- r) t.
Proof.
  destruct t as [t| ]; cbn [zerr]; [apply uerr_opp| ]. intros (-> & Z). split; [apply Ropp_0| ]. rewrite is_finite_Bopp, B2R_Bopp. intros F. rewrite (Z F). apply Ropp_0.
Qed.
Lemma zerr_sub x x' r r' t t' : zerr x r t -> zerr x' r' t' -> zerr (sub x x') (sub r r') (sub t t').
Proof. intros A A'. pose proof (zerr_add _ _ _ _ _ _ A (zerr_opp _ _ _ A')) as X. cbn [sub F_Num R_Num]. rewrite Bminus_plus. exact X. Qed.

Lemma zerr_mul x x' r r' t t' : zerr x r t -> zerr x' r' t' -> zerr (mul x x') (mul r r') (mul t t').
Proof.
  destruct t as [t| ], t' as [t'| ]; cbn [zerr mul bdz_Num].
  - apply uerr_mul.
  - intros _ (-> & Z). split; [apply Rmult_0_r| ]. cbn [mul F_Num]. intros F. destruct (mult_finite x x' F) as (F1 & F2 & V).
    rewrite V, (Z F2), Rmult_0_r. apply round_0, valid_rnd_N.
  - intros (-> & Z) _. split; [apply Rmult_0_l| ]. cbn [mul F_Num]. intros F. destruct (mult_finite x x' F) as (F1 & F2 & V).
    rewrite V, (Z F1), Rmult_0_l. apply round_0, valid_rnd_N.
  - intros (-> & Z) _. split; [apply Rmult_0_l| ]. cbn [mul F_Num]. intros F. destruct (mult_finite x x' F) as (F1 & F2 & V).
    rewrite V, (Z F1), Rmult_0_l. apply round_0, valid_rnd_N.
Qed.

Lemma uerr_weaken (x : fl) r b d h b' d' h' : uerr x r (b, d, h) -> b <= b' -> (d <= d')%nat -> h <= h' -> uerr x r (b', d', h').
Proof.
  intros (B0 & H0 & A) B D H. split; [lra|split; [lra| ]]. intros F. destruct (A F) as (A1 & A2). split; [lra| ].
  apply (uerr_le d d') in A2; try assumption. pose proof (pow_mono 0 d' ltac:(lia) : _ <= _ <= (1 + uro) ^ d') as [_ P]. rewrite pow_O in P.
  eapply Rle_trans; [exact A2| ]. apply Rplus_le_compat; apply Rmult_le_compat_l; lra.
Qed.

(** the bounds of a homogeneous matrix and of its determinant *)
Definition hom_bd (t p p' p'' o : bdu) : M44 bdz :=
  [| [| Some t; Some t; Some t; Some p |]; [| Some t; Some t; Some t; Some p' |]; [| Some t; Some t; Some t; Some p'' |]; [| None; None; None; Some o |] |].

Lemma hom_det_bd h p p' p'' : 0 < h <= / 10000 -> eta <= / 10 * h ->
  exists H, m44_det (hom_bd (4, 12%nat, h) p p' p'' (1, 1%nat, eta)) = Some (384, 45%nat, H) /\ H <= 450 * h.
Proof.
  intros Hh E. pose proof (eta_pos (prec := prec) (emax := emax)) as E0.
  lazy [hom_bd m44_det ix0 ix1 ix2 ix3 ahd atl fst snd acons anil add sub mul bdz_Num bdu_Num Nat.max Nat.add].
  eexists. split; [f_equal; f_equal; f_equal; ring| ]. generalize dependent eta. intros e E E0.
  assert (A1 : 0 <= h * h <= / 10000 * h) by nra. assert (A2 : 0 <= h * e <= / 10000 * h) by nra. assert (A3 : 0 <= e * e <= / 10000 * h) by nra.
  assert (A4 : 0 <= h * h * h <= / 10000 * h) by nra. assert (A5 : 0 <= h * h * e <= / 10000 * h) by nra. assert (A6 : 0 <= h * e * e <= / 10000 * h) by nra.
  assert (A7 : 0 <= h * h * h * e <= / 10000 * h) by nra. assert (A8 : 0 <= h * h * e * e <= / 10000 * h) by nra. lra.
Qed.

Lemma rel_mat_fun {T1 T2 T3} {N1 : Num T1} {N2 : Num T2} {N3 : Num T3} (rel : T1 -> T2 -> T3 -> Prop) n m x a b :
  rel_mat rel n m x a b -> forall i j, (i < m)%nat -> (j < n)%nat -> rel (mfun x i j) (mfun a i j) (mfun b i j).
Proof.
  assert (Row : forall n (x : arr T1 n) (a : arr T2 n) (b : arr T3 n), rel_row rel n x a b -> forall j, (j < n)%nat -> rel (vfun x j) (vfun a j) (vfun b j)).
  { clear. induction n as [ |n IH]; intros x a b H j Hj; [lia| ]. destruct x as [x0 x], a as [a0 a], b as [b0 b], H as [H0 H].
    destruct j as [ |j]; [exact H0| ]. apply (IH x a b H j). lia. }
  revert x a b. induction m as [ |m IH]; intros x a b H i j Hi Hj; [lia| ]. destruct x as [x0 x], a as [a0 a], b as [b0 b], H as [H0 H].
  destruct i as [ |i]; [exact (Row n x0 a0 b0 H0 j Hj)| ]. apply (IH x a b H i j); lia.
Qed.
Lemma rel_mat_of {T1 T2 T3} {N1 : Num T1} {N2 : Num T2} {N3 : Num T3} (rel : T1 -> T2 -> T3 -> Prop) (x : M44 T1) (a : M44 T2) (b : M44 T3) :
  (forall i j, (i < 4)%nat -> (j < 4)%nat -> rel (mfun x i j) (mfun a i j) (mfun b i j)) -> rel_mat rel 4 4 x a b.
Proof.
  intros H. cbn in x, a, b. repeat match goal with H : (_ * _)%type |- _ => destruct H end. repeat match goal with H : unit |- _ => destruct H end.
  repeat match goal with |- rel_mat _ _ _ _ _ _ => split | |- rel_row _ _ _ _ _ => split | |- True => exact I end;
  match goal with |- rel ?x _ _ => first
   [exact (H 0 0 ltac:(lia) ltac:(lia))%nat|exact (H 0 1 ltac:(lia) ltac:(lia))%nat|exact (H 0 2 ltac:(lia) ltac:(lia))%nat|exact (H 0 3 ltac:(lia) ltac:(lia))%nat
   |exact (H 1 0 ltac:(lia) ltac:(lia))%nat|exact (H 1 1 ltac:(lia) ltac:(lia))%nat|exact (H 1 2 ltac:(lia) ltac:(lia))%nat|exact (H 1 3 ltac:(lia) ltac:(lia))%nat
   |exact (H 2 0 ltac:(lia) ltac:(lia))%nat|exact (H 2 1 ltac:(lia) ltac:(lia))%nat|exact (H 2 2 ltac:(lia) ltac:(lia))%nat|exact (H 2 3 ltac:(lia) ltac:(lia))%nat
   |exact (H 3 0 ltac:(lia) ltac:(lia))%nat|exact (H 3 1 ltac:(lia) ltac:(lia))%nat|exact (H 3 2 ltac:(lia) ltac:(lia))%nat|exact (H 3 3 ltac:(lia) ltac:(lia))%nat] end.
Qed.

Hypothesis Hp11 : (11 <= prec)%Z.
Hypothesis He4 : (4 * prec <= emax)%Z.

(** a homogeneous matrix of floats whose upper left entries are close to [r], whose translation is moderate and whose last row is exact *)
Definition hom_close (x : M44 fl) (r : M44 R) : Prop :=
  (forall i j, (i < 4)%nat -> (j < 4)%nat -> is_finite (mfun x i j) = true) /\
  (forall i j, (i < 3)%nat -> (j < 3)%nat -> uerr (mfun x i j) (mfun r i j) (4, 12%nat, / 100 * uro)) /\
  (forall i, (i < 3)%nat -> Rabs (B2R (mfun x i 3)) <= 5 * bpow radix2 (emax - 20) /\ exists t, uerr (mfun x i 3) (mfun r i 3) t) /\
  (forall j, (j < 3)%nat -> B2R (mfun x 3 j) = 0 /\ mfun r 3 j = 0) /\ uerr (mfun x 3 3) 1 (1, 1%nat, eta) /\ mfun r 3 3 = 1.

Lemma hom_close_det x r : hom_close x r -> is_finite (m44_det x) = true /\ Rabs (B2R (m44_det x) - m44_det r) <= 18000 * uro.
Proof.
  intros (F & U & P & Z & On & R1). pose proof (uro_small Hp11) as Us. pose proof (uro_pos (prec := prec)) as U0.
  pose proof (eta_tiny Hp11 He4) as Et. pose proof (eta_pos (prec := prec) (emax := emax)) as E0.
  destruct (P 0%nat ltac:(lia)) as (P0 & t0 & T0). destruct (P 1%nat ltac:(lia)) as (P1 & t1 & T1). destruct (P 2%nat ltac:(lia)) as (P2 & t2 & T2).
  assert (FD : is_finite (m44_det x) = true).
  { set (M := bpow radix2 (emax - 20)) in *. assert (M1 : 1 <= M) by (change 1 with (bpow radix2 0); apply bpow_le; lia).
    assert (M2 : bpow radix2 emax = 1048576 * M) by (unfold M; change 1048576 with (bpow radix2 20); rewrite <- bpow_plus; f_equal; ring).
    set (tm := [| [| (5, 0%nat); (5, 0%nat); (5, 0%nat); (5 * M, 0%nat) |]; [| (5, 0%nat); (5, 0%nat); (5, 0%nat); (5 * M, 0%nat) |];
      [| (5, 0%nat); (5, 0%nat); (5, 0%nat); (5 * M, 0%nat) |]; [| (1, 0%nat); (1, 0%nat); (1, 0%nat); (2, 0%nat) |] |] : M44 bdm).
    assert (UM : rel_mat (fun x (_ : R) t => ufin x t) 4 4 x r tm).
    { apply (rel_mat_of (N3 := bdm_Num)). intros i j Hi Hj.
      assert (C : (i < 3 /\ j < 3 \/ i < 3 /\ j = 3 \/ i = 3 /\ j < 3 \/ i = 3 /\ j = 3)%nat) by lia.
      assert (Up : forall i j, (i < 3)%nat -> (j < 3)%nat -> ufin (mfun x i j) (5, 0%nat)).
      { intros i' j' Hi' Hj'. destruct (U i' j' Hi' Hj') as (_ & _ & A). destruct (A (F i' j' ltac:(lia) ltac:(lia))) as (A1 & A2).
        apply ufin_leaf; [apply F; lia| |lra]. pose proof (pow_lin Hp11 12 (121 / 10) ltac:(cbn; lra) ltac:(lra)) as P12.
        pose proof (pow_mono 0 12 ltac:(lia) : _ <= _ <= (1 + uro) ^ 12) as [_ P12']. rewrite pow_O in P12'. set (q := (1 + uro) ^ 12) in *. clearbody q.
        set (y := B2R (mfun x i' j')) in *. set (s := mfun r i' j') in *. clearbody y s. replace y with ((y - s) + s) by ring. eapply Rle_trans; [apply Rabs_triang| ].
        assert (q * (/ 100 * uro) <= 2 * (/ 100 * uro)) by (apply Rmult_le_compat_r; lra). lra. }
      destruct C as [(Ci & Cj)|[(Ci & ->)|[(-> & Cj)|(-> & ->)]]].
      - replace (mfun tm i j) with ((5, 0%nat) : bdm); [apply Up; assumption| ]. all_lt i Ci; all_lt j Cj; reflexivity.
      - replace (mfun tm i 3) with ((5 * M, 0%nat) : bdm) by (all_lt i Ci; reflexivity). apply ufin_leaf; [apply F; lia|apply P; exact Ci|lra].
      - replace (mfun tm 3 j) with ((1, 0%nat) : bdm) by (all_lt j Cj; reflexivity). apply ufin_leaf; [apply F; lia| |lra].
        rewrite (proj1 (Z j Cj)), Rabs_R0. lra.
      - change (mfun tm 3 3) with ((2, 0%nat) : bdm). apply ufin_leaf; [apply F; lia| |lra]. destruct On as (_ & _ & A).
        destruct (A (F 3 3 ltac:(lia) ltac:(lia))%nat) as (_ & A2). rewrite pow_1 in A2. set (y := B2R (mfun x 3 3)) in *. clearbody y.
        replace y with ((y - 1) + 1) by ring. eapply Rle_trans; [apply Rabs_triang| ]. rewrite Rabs_R1.
        assert ((1 + uro) * eta <= 2 * eta) by (apply Rmult_le_compat_r; lra). lra. }
    pose proof (rel_det (N3 := bdm_Num) (fun x (_ : R) t => ufin x t) (fun _ _ _ _ _ _ A B => ufin_add Hp11 He4 _ _ _ _ A B) (fun _ _ _ _ _ _ A B => ufin_sub Hp11 He4 _ _ _ _ A B)
       (fun _ _ _ _ _ _ A B => ufin_mul Hp11 He4 _ _ _ _ A B) D4 x r tm UM) as D. cbv beta in D. rewrite !det4 in D.
    unfold tm in D. clear - D M1 M2 Hp11 He4. clearbody M.
    set (y := m44_det x) in D |- *. clearbody y.
    lazy [m44_det ix0 ix1 ix2 ix3 ahd atl fst snd acons anil add sub mul bdm_Num Nat.add] in D.
    eapply (ufin_done Hp11 _ _ _ _ (262144 * M) 1000); [exact D|reflexivity|lra| |lra|lra]. rewrite INR_IZR_INZ. cbn. lra. }
  split; [exact FD| ].
  assert (ZM : rel_mat zerr 4 4 x r (hom_bd (4, 12%nat, / 100 * uro) t0 t1 t2 (1, 1%nat, eta))).
  { apply rel_mat_of. intros i j Hi Hj. set (tm := hom_bd _ _ _ _ _).
    assert (C : (i < 3 /\ j < 3 \/ i < 3 /\ j = 3 \/ i = 3 /\ j < 3 \/ i = 3 /\ j = 3)%nat) by lia.
    destruct C as [(Ci & Cj)|[(Ci & ->)|[(-> & Cj)|(-> & ->)]]].
    - replace (mfun tm i j) with (Some (4, 12%nat, / 100 * uro) : bdz); [exact (U i j Ci Cj)| ]. all_lt i Ci; all_lt j Cj; reflexivity.
    - destruct i as [ |[ |[ |i]]]; [exact T0|exact T1|exact T2|lia].
    - replace (mfun tm 3 j) with (None : bdz) by (all_lt j Cj; reflexivity). destruct (Z j Cj) as [Z1 Z2]. split; [exact Z2|intros _; exact Z1].
    - rewrite R1. exact On. }
  pose proof (rel_det zerr zerr_add zerr_sub zerr_mul D4 x r _ ZM) as D.
  destruct (hom_det_bd (/ 100 * uro) t0 t1 t2 ltac:(lra) ltac:(lra)) as (H & E & HH).
  rewrite !det4, E in D.
  destruct D as (_ & H0 & D). destruct (D FD) as (_ & D2). eapply Rle_trans; [exact D2| ].
  pose proof (pow_lin Hp11 45 (461 / 10) ltac:(cbn; lra) ltac:(lra)) as PL. pose proof (pow_mono 0 45 ltac:(lia) : _ <= _ <= (1 + uro) ^ 45) as [_ PL'].
  rewrite pow_O in PL'. set (q := (1 + uro) ^ 45) in *. clearbody q. clear - PL PL' HH H0 Us U0.
  assert (q * H <= 2 * (450 * (/ 100 * uro))) by (apply Rmult_le_compat; lra).
  assert ((q - 1) * 384 <= 461 / 10 * uro * 384) by (apply Rmult_le_compat_r; lra). lra.
Qed.

(** ** [nearly_equal] against one *)
Lemma max_float_val : is_finite (Bmax_float : fl) = true /\ is_nan (Bmax_float : fl) = false /\ B2R (Bmax_float : fl) = bpow radix2 emax - bpow radix2 (emax - prec).
Proof.
  split; [unfold Bmax_float; rewrite is_finite_SF2B; reflexivity|split; [unfold Bmax_float; rewrite is_nan_SF2B; reflexivity| ]].
  unfold Bmax_float. rewrite B2R_SF2B. cbn [SF2R cond_Zopp]. unfold F2R. cbn [Fnum Fexp]. rewrite Pos2Z.inj_sub.
  - rewrite shift_pos_correct, Z.mul_1_r. rewrite Z.pow_pos_fold. rewrite Z2Pos.id by lia. rewrite minus_IZR.
    change 2%Z with (radix_val radix2). rewrite IZR_Zpower by lia. rewrite Rmult_minus_distr_r, <- bpow_plus, Rmult_1_l. f_equal. f_equal. ring.
  - enough (X : (1 < Z.pos (shift_pos (Z.to_pos prec) 1))%Z) by exact X. rewrite shift_pos_correct, Z.mul_1_r. rewrite Z.pow_pos_fold. rewrite Z2Pos.id by lia. apply (Z.pow_gt_1 2 prec); lia.
Qed.

Lemma plus_small (x y : fl) : is_finite x = true -> is_finite y = true -> Rabs (B2R x + B2R y) <= bpow radix2 (emax - 1) ->
  is_finite (Bplus mode_NE x y) = true /\ Rabs (B2R (Bplus mode_NE x y)) <= bpow radix2 (emax - 1).
Proof.
  intros F F' L.
  assert (B : Rabs (rnd (B2R x + B2R y)) <= bpow radix2 (emax - 1)).
  { apply abs_round_le_generic; [apply FLT_exp_valid; exact Hp|apply valid_rnd_N| |exact L].
    apply generic_format_bpow. change (FLT_exp emin prec (emax - 1 + 1) <= emax - 1)%Z. unfold FLT_exp, Prec_gt_0, Prec_lt_emax in *. lia. }
  pose proof (Bplus_correct prec emax Hp He mode_NE x y F F') as X. cbn [round_mode] in X. rewrite fe_eq in X. rewrite Rlt_bool_true in X.
  - destruct X as (X1 & X2 & _). split; [exact X2|rewrite X1; exact B].
  - eapply Rle_lt_trans; [exact B|apply bpow_lt; lia].
Qed.

Lemma nearly_one_eq (x e : fl) : is_finite x = true -> Rabs (B2R x) <= bpow radix2 (emax - 2) -> B2R x <> 1 -> B2R x <> 0 ->
  exists q : fl, nearly_equal x one e = Bltb q e /\ is_finite q = true /\
  exists e1 e2 e3 h, Rabs e1 <= uro /\ Rabs e2 <= uro /\ Rabs e3 <= uro /\ Rabs h <= eta /\
  B2R q = Rabs (B2R x - 1) * (1 + e1) / ((Rabs (B2R x) + 1) * (1 + e2)) * (1 + e3) + h.
Proof.
  intros F L N1 N0. pose proof (uro_small Hp11) as U. pose proof (uro_pos (prec := prec)) as P.
  assert (Fo : is_finite (Bone : fl) = true) by apply is_finite_Bone. assert (Vo : B2R (Bone : fl) = 1) by apply Bone_correct.
  assert (B2 : bpow radix2 (emax - 1) = 2 * bpow radix2 (emax - 2)) by (change 2 with (bpow radix2 1); rewrite <- bpow_plus; f_equal; ring).
  assert (B1 : bpow radix2 emax = 2 * bpow radix2 (emax - 1)) by (change 2 with (bpow radix2 1); rewrite <- bpow_plus; f_equal; ring).
  assert (B0 : 4 <= bpow radix2 (emax - 2)) by (change 4 with (bpow radix2 2); apply bpow_le; lia).
  assert (Bp : bpow radix2 (emax - prec) <= bpow radix2 (emax - 2)) by (apply bpow_le; lia).
  destruct (plus_small x (Bopp Bone) F ltac:(rewrite is_finite_Bopp; exact Fo)) as (Fd & _).
  { rewrite B2R_Bopp, Vo. eapply Rle_trans; [apply Rabs_triang| ]. rewrite Rabs_Ropp, Rabs_R1. lra. }
  destruct (plus_error _ _ Fd) as (e1 & L1 & V1). rewrite B2R_Bopp, Vo in V1. rewrite <- Bminus_plus in Fd, V1.
  destruct (plus_small (Babs x) (Babs Bone) ltac:(rewrite is_finite_Babs; exact F) ltac:(rewrite is_finite_Babs; exact Fo)) as (Fs & Ls).
  { rewrite !B2R_Babs, Vo, Rabs_R1, Rabs_pos_eq; [lra|pose proof (Rabs_pos (B2R x)); lra]. }
  destruct (plus_error _ _ Fs) as (e2 & L2 & V2). rewrite !B2R_Babs, Vo, Rabs_R1 in V2.
  set (s := Bplus mode_NE (Babs x) (Babs Bone)) in *. set (d := Bminus mode_NE x Bone) in *.
  destruct max_float_val as (FM & NM & VM).
  assert (Q1 : Rabs (1 + e1 - 1) <= uro) by (replace (1 + e1 - 1) with e1 by ring; exact L1).
  assert (Q2 : / 2 <= 1 + e2 <= 2) by (apply Rabs_le_inv in L2; lra).
  assert (Q3 : / 2 <= 1 + e1 <= 11 / 10) by (apply Rabs_le_inv in L1; lra). apply Rabs_le_inv in L2.
  pose proof (Rabs_pos (B2R x)) as PX.
  assert (Sp : / 2 <= B2R s) by (rewrite V2; nra).
  assert (Sm : f_min s Bmax_float = s).
  { unfold f_min. replace (is_nan s) with false by (clearbody s; destruct s; [reflexivity..|discriminate Fs|reflexivity]). rewrite NM.
    rewrite Bltb_correct by assumption. rewrite Rlt_bool_false; [reflexivity| ]. rewrite VM. apply Rabs_le_inv in Ls. lra. }
  assert (Dv : B2R (Babs d) = Rabs (B2R x - 1) * (1 + e1)).
  { rewrite B2R_Babs, V1, Rabs_mult, (Rabs_pos_eq (1 + e1)) by lra. reflexivity. }
  exists (Bdiv mode_NE (Babs d) s).
  destruct (div_error (Babs d) s) as (Fq & e3 & h & L3 & Lh & V3).
  - rewrite is_finite_Babs. exact Fd.
  - lra.
  - rewrite Dv, V2, Rabs_pos_eq.
    + apply Rmult_le_reg_r with ((Rabs (B2R x) + 1) * (1 + e2)); [nra| ]. unfold Rdiv. rewrite Rmult_assoc, Rinv_l by nra.
      pose proof (Rabs_triang (B2R x) (- (1))) as T. rewrite Rabs_Ropp, Rabs_R1 in T. unfold Rminus at 1. set (t := Rabs (B2R x + - (1))) in *.
      assert (0 <= t) by apply Rabs_pos. clearbody t. set (w := Rabs (B2R x)) in *. clearbody w. clear - T PX H L2 Q3 U P.
      assert (t * (1 + e1) <= (w + 1) * (11 / 10)) by (apply Rmult_le_compat; lra).
      assert ((w + 1) * (99 / 100) <= (w + 1) * (1 + e2)) by (apply Rmult_le_compat_l; lra). lra.
    + apply Rmult_le_pos; [apply Rmult_le_pos; [apply Rabs_pos|lra]|apply Rlt_le, Rinv_0_lt_compat; nra].
  - split; [ |split; [exact Fq| ]].
    + unfold nearly_equal. cbn [eqb abs add sub div ltb zero one fmin max_value min_value F_Num F_Signed F_POrd F_Float].
      rewrite Beqb_correct, Vo by assumption. rewrite Req_bool_false by exact N1.
      rewrite Beqb_correct by (assumption || reflexivity). cbn [B2R]. rewrite Req_bool_false by exact N0.
      rewrite Beqb_correct by (assumption || reflexivity). rewrite Vo. cbn [B2R]. rewrite Req_bool_false by lra.
      fold s d. rewrite Bltb_correct; [ |exact Fs|rewrite is_finite_Bopp; exact FM]. rewrite B2R_Bopp, VM, Rlt_bool_false by lra.
      cbn [orb]. rewrite Sm. reflexivity.
    + exists e1, e2, e3, h. split; [exact L1|split; [apply Rabs_le; exact L2|split; [exact L3|split; [exact Lh| ]]]].
      rewrite V3, Dv, V2. reflexivity.
Qed.

(** a number within the tolerance of one is accepted; an accepted number is within three tolerances of one *)
Lemma c88_nearly_one_accepts : forall x e : fl, is_finite x = true -> is_finite e = true -> Rabs (B2R x - 1) <= / 2 -> uro <= B2R e ->
  Rabs (B2R x - 1) <= B2R e -> nearly_equal x one e = true.
Proof.
  intros x e F Fe H Ue HE. pose proof (uro_small Hp11) as U. pose proof (uro_pos (prec := prec)) as P. pose proof (eta_tiny Hp11 He4) as Et.
  pose proof (eta_pos (prec := prec) (emax := emax)) as E0.
  destruct (Req_dec (B2R x) 1) as [E1|N1].
  - unfold nearly_equal. cbn [eqb one F_Num]. rewrite Beqb_correct; [ |exact F|apply is_finite_Bone]. rewrite Bone_correct, Req_bool_true by exact E1. reflexivity.
  - assert (X : / 2 <= B2R x <= 3 / 2) by (apply Rabs_le_inv in H; lra).
    assert (B0 : 2 <= bpow radix2 (emax - 2)) by (change 2 with (bpow radix2 1); apply bpow_le; lia).
    destruct (nearly_one_eq x e F) as (q & -> & Fq & e1 & e2 & e3 & h & L1 & L2 & L3 & Lh & V); [rewrite Rabs_pos_eq; lra|exact N1|lra| ].
    rewrite Bltb_correct by assumption. apply Rlt_bool_true. rewrite V, (Rabs_pos_eq (B2R x)) by lra.
    apply Rabs_le_inv in L1. apply Rabs_le_inv in L2. apply Rabs_le_inv in L3. apply Rabs_le_inv in Lh.
    set (t := Rabs (B2R x - 1)) in *. assert (T0 : 0 <= t) by apply Rabs_pos. clearbody t. set (s := (B2R x + 1) * (1 + e2)).
    assert (Sl : 14 / 10 <= s) by (unfold s; nra). clearbody s. set (E := B2R e) in *. clearbody E. clear - t T0 HE Ue P U L1 L3 Lh Et Sl.
    assert (A : t * (1 + e1) <= E * (11 / 10)) by (apply Rmult_le_compat; lra).
    assert (A2 : t * (1 + e1) / s <= 11 / 14 * E).
    { apply Rmult_le_reg_r with s; [lra| ]. unfold Rdiv at 1. rewrite Rmult_assoc, Rinv_l by lra. assert (11 / 14 * E * (14 / 10) <= 11 / 14 * E * s) by (apply Rmult_le_compat_l; lra). lra. }
    assert (A0 : 0 <= t * (1 + e1) / s) by (apply Rmult_le_pos; [apply Rmult_le_pos; lra|apply Rlt_le, Rinv_0_lt_compat; lra]).
    set (y := t * (1 + e1) / s) in *. clearbody y. assert (y * (1 + e3) <= 11 / 14 * E * (11 / 10)) by (apply Rmult_le_compat; lra). lra.
Qed.

Lemma c88_nearly_one_sound : forall x e : fl, is_finite x = true -> is_finite e = true -> Rabs (B2R x) <= bpow radix2 (emax - 2) -> uro <= B2R e <= / 8 ->
  nearly_equal x one e = true -> Rabs (B2R x - 1) <= 3 * B2R e.
Proof.
  intros x e F Fe H Ue HE. pose proof (uro_small Hp11) as U. pose proof (uro_pos (prec := prec)) as P. pose proof (eta_tiny Hp11 He4) as Et.
  pose proof (eta_pos (prec := prec) (emax := emax)) as E0.
  destruct (Req_dec (B2R x) 1) as [E1|N1]; [rewrite E1; unfold Rminus; rewrite Rplus_opp_r, Rabs_R0; lra| ].
  destruct (Req_dec (B2R x) 0) as [Z|N0].
  - exfalso. revert HE. rewrite c23_symmetric. assert (Ex : exists s, x = B754_zero s).
    { destruct x as [s|s| |s m k Hx]; try discriminate F; [now exists s| ]. exfalso. revert Z. cbn. unfold F2R. cbn. intros Z. apply Rmult_integral in Z.
      destruct Z as [Z|Z]; [apply eq_IZR in Z; destruct s; discriminate|pose proof (bpow_gt_0 radix2 k); lra]. }
    destruct Ex as (s & ->). unfold nearly_equal. cbn [eqb abs add sub div ltb zero one F_Num F_Signed F_POrd].
    rewrite !Beqb_correct; try reflexivity; try apply is_finite_Bone. rewrite Bone_correct. cbn [B2R]. rewrite Req_bool_false by lra.
    rewrite Req_bool_true by reflexivity. rewrite orb_true_r. cbn [orb].
    pose proof (Bminus_correct prec emax Hp He mode_NE Bone (B754_zero s) (is_finite_Bone _ _ _ _) eq_refl) as C. rewrite Bone_correct in C. cbn [B2R round_mode] in C.
    rewrite Rminus_0_r, fe_eq in C. assert (R1 : rnd 1 = 1) by (rewrite <- (Bone_correct prec emax Hp He); apply rnd_val). rewrite R1 in C. rewrite Rlt_bool_true in C.
    + destruct C as (C1 & C2 & _). rewrite Bltb_correct; [ |rewrite is_finite_Babs; exact C2|exact Fe]. rewrite B2R_Babs, C1, Rabs_R1, Rlt_bool_false by lra. discriminate.
    + rewrite Rabs_R1. change 1 with (bpow radix2 0). apply bpow_lt. lia.
  - destruct (nearly_one_eq x e F H N1 N0) as (q & E & Fq & e1 & e2 & e3 & h & L1 & L2 & L3 & Lh & V). rewrite E in HE. clear E.
    rewrite Bltb_correct in HE by assumption. destruct (Rlt_bool_spec (B2R q) (B2R e)) as [Q|Q]; [ |discriminate]. rewrite V in Q. clear HE V.
    apply Rabs_le_inv in L1. apply Rabs_le_inv in L2. apply Rabs_le_inv in L3. apply Rabs_le_inv in Lh.
    assert (T : Rabs (B2R x) <= Rabs (B2R x - 1) + 1).
    { replace (B2R x) with ((B2R x - 1) + 1) at 1 by ring. eapply Rle_trans; [apply Rabs_triang|rewrite Rabs_R1; lra]. }
    pose proof (Rabs_pos (B2R x)) as W0. set (w := Rabs (B2R x)) in *. set (t := Rabs (B2R x - 1)) in *. assert (T0 : 0 <= t) by apply Rabs_pos.
    clearbody w t. set (E := B2R e) in *. clearbody E. clear - Q T T0 W0 Ue P U L1 L2 L3 Lh Et.
    assert (Sp : 0 < (w + 1) * (1 + e2)) by nra.
    set (y := t * (1 + e1) / ((w + 1) * (1 + e2))) in *.
    assert (Y : t * (1 + e1) = y * ((w + 1) * (1 + e2))) by (unfold y; field; lra).
    assert (Y0 : 0 <= y) by (apply Rmult_le_pos; [apply Rmult_le_pos; lra|apply Rlt_le, Rinv_0_lt_compat; exact Sp]). clearbody y.
    assert (Yb : y <= 101 / 100 * E) by nra.
    assert (t * (1 - / 2048) <= t * (1 + e1)) by (apply Rmult_le_compat_l; lra).
    assert (y * ((w + 1) * (1 + e2)) <= 101 / 100 * E * ((t + 2) * (1 + / 2048))).
    { apply Rmult_le_compat; try lra. apply Rmult_le_compat; lra. }
    nra.
Qed.

(** ** the homogeneous matrix of a nearly unit quaternion, and its square *)
Definition rotR3 (B : nat -> R) : M33 R :=
  [| [| rot_exact B 0 0; rot_exact B 0 1; rot_exact B 0 2 |]; [| rot_exact B 1 0; rot_exact B 1 1; rot_exact B 1 2 |]; [| rot_exact B 2 0; rot_exact B 2 1; rot_exact B 2 2 |] |].
Definition homR (B : nat -> R) (p : nat -> R) : M44 R := homogeneous_from_rotation (rotR3 B) [| p 0%nat; p 1%nat; p 2%nat |].

Lemma homR_det B p : m44_det (homR B p) = sq_sum 4 B ^ 3.
Proof.
  transitivity (m33_det (rotR3 B)).
  - unfold homR. generalize (rotR3 B). intros m. destruct m as ((m00&m01&m02&[])&(m10&m11&m12&[])&(m20&m21&m22&[])&[]).
    lazy [homogeneous_from_rotation m44_det m33_det ix0 ix1 ix2 ix3 ahd atl acons anil fst snd add sub mul one zero R_Num]. ring.
  - lazy [rotR3 m33_det ix0 ix1 ix2 ahd atl acons anil fst snd rot_exact hamilton h4 h4conj comp4 e4 sq_sum sumn add sub mul one zero R_Num]. ring.
Qed.

Lemma mul4 {T} {nT : Num T} (a b : M44 T) : d_mul D4 a b = m44_mul a b.
Proof. reflexivity. Qed.

Lemma det4_mul (a b : M44 R) : m44_det (m44_mul a b) = m44_det a * m44_det b.
Proof. pose proof (c05_det_mul R_ring D4 a b) as X. rewrite !det4 in X. rewrite mul4 in X. exact X. Qed.

Section Hom.
Context (b : Quaternion fl) (p : V3 fl) (dl : R).
Let B := fun k => B2R (qcomp k b).
Hypothesis Fb : forall k, (k < 4)%nat -> is_finite (qcomp k b) = true.
Hypothesis Db : Rabs (sq_sum 4 B - 1) <= dl.
Hypothesis Dl : dl <= / 100.
Hypothesis Hpos : forall k, (k < 3)%nat -> is_finite (vfun p k) = true /\ Rabs (B2R (vfun p k)) <= bpow radix2 (emax - 20).
Let x := homogeneous_from_quaternion b p.
Let P := fun k => B2R (vfun p k).
Let r := homR B P.

Lemma hom_rot i j : (i < 3)%nat -> (j < 3)%nat -> mfun x i j = mfun (q_to_rotation b) i j /\ mfun r i j = rot_exact B i j.
Proof.
  intros Hi Hj. unfold x, homogeneous_from_quaternion. generalize (q_to_rotation b). intros m. destruct m as ((m00&m01&m02&[])&(m10&m11&m12&[])&(m20&m21&m22&[])&[]).
  all_lt i Hi; all_lt j Hj; split; reflexivity.
Qed.
Lemma hom_pos i : (i < 3)%nat -> mfun x i 3 = vfun p i /\ mfun r i 3 = P i.
Proof. intros Hi. unfold P. destruct p as (p0&p1&p2&[]). all_lt i Hi; split; reflexivity. Qed.
Lemma hom_low j : (j < 3)%nat -> mfun x 3 j = B754_zero false /\ mfun r 3 j = 0.
Proof. intros Hj. all_lt j Hj; split; reflexivity. Qed.
Lemma hom_one : mfun x 3 3 = (Bone : fl) /\ mfun r 3 3 = 1.
Proof. split; reflexivity. Qed.

Lemma corner_cases i j : (i < 4)%nat -> (j < 4)%nat -> (i < 3 /\ j < 3 \/ i < 3 /\ j = 3 \/ i = 3 /\ j < 3 \/ i = 3 /\ j = 3)%nat.
Proof. lia. Qed.

Lemma hom_finite i j : (i < 4)%nat -> (j < 4)%nat -> is_finite (mfun x i j) = true.
Proof.
  intros Hi Hj. destruct (corner_cases i j Hi Hj) as [(Ci & Cj)|[(Ci & ->)|[(-> & Cj)|(-> & ->)]]].
  - rewrite (proj1 (hom_rot i j Ci Cj)). exact (unit_rot_finite Hp11 He4 b dl Fb Db Dl i j Ci Cj).
  - rewrite (proj1 (hom_pos i Ci)). apply Hpos, Ci.
  - rewrite (proj1 (hom_low j Cj)). reflexivity.
  - rewrite (proj1 hom_one). apply is_finite_Bone.
Qed.

Lemma hom_uerr i j : (i < 3)%nat -> (j < 3)%nat -> uerr (mfun x i j) (mfun r i j) (101 / 100, 4%nat, / 1000 * uro).
Proof. intros Hi Hj. destruct (hom_rot i j Hi Hj) as [-> ->]. exact (unit_rot_uerr Hp11 He4 b dl Db Dl i j Hi Hj). Qed.

Lemma hom_of_unit : hom_close x r.
Proof.
  pose proof (uro_pos (prec := prec)) as U. pose proof (eta_pos (prec := prec) (emax := emax)) as E0.
  split; [exact hom_finite|split; [ |split; [ |split; [ |split]]]].
  - intros i j Hi Hj. eapply uerr_weaken; [apply hom_uerr; assumption|lra|lia|lra].
  - intros i H. destruct (hom_pos i H) as [-> ->]. split; [ |eexists; apply uerr_leaf]. pose proof (proj2 (Hpos i H)). pose proof (bpow_ge_0 radix2 (emax - 20)). lra.
  - intros j H. destruct (hom_low j H) as [-> ->]. split; reflexivity.
  - rewrite (proj1 hom_one). eapply uerr_weaken; [apply uerr_one|lra|lia|lra].
  - apply hom_one.
Qed.

Lemma hom_small i j : (i < 3)%nat -> (j < 3)%nat -> Rabs (B2R (mfun x i j)) <= 102 / 100.
Proof.
  intros Hi Hj. pose proof (uro_small Hp11) as Us. pose proof (uro_pos (prec := prec)) as U0. destruct (hom_uerr i j Hi Hj) as (_ & _ & A). destruct (A (hom_finite i j ltac:(lia) ltac:(lia))) as (A1 & A2).
  pose proof (pow_lin Hp11 4 (401 / 100) ltac:(cbn; lra) ltac:(lra)) as P4.
  pose proof (pow_mono 0 4 ltac:(lia) : _ <= _ <= (1 + uro) ^ 4) as [_ P4']. rewrite pow_O in P4'. set (q := (1 + uro) ^ 4) in *. clearbody q.
  set (y := B2R (mfun x i j)) in *. set (s := mfun r i j) in *. clearbody y s. replace y with ((y - s) + s) by ring. eapply Rle_trans; [apply Rabs_triang| ].
  assert (q * (/ 1000 * uro) <= 2 * (/ 1000 * uro)) by (apply Rmult_le_compat_r; lra).
  assert ((q - 1) * (101 / 100) <= 401 / 100 * uro * (101 / 100)) by (apply Rmult_le_compat_r; lra). lra.
Qed.

Let tm (M : R) : M44 bdm := [| [| (102 / 100, 0%nat); (102 / 100, 0%nat); (102 / 100, 0%nat); (M, 0%nat) |]; [| (102 / 100, 0%nat); (102 / 100, 0%nat); (102 / 100, 0%nat); (M, 0%nat) |];
      [| (102 / 100, 0%nat); (102 / 100, 0%nat); (102 / 100, 0%nat); (M, 0%nat) |]; [| (1, 0%nat); (1, 0%nat); (1, 0%nat); (1, 0%nat) |] |].

Lemma hom_ufin : rel_mat (fun x (_ : R) t => ufin x t) 4 4 x r (tm (bpow radix2 (emax - 20))).
Proof.
  assert (M1 : 1 <= bpow radix2 (emax - 20)) by (change 1 with (bpow radix2 0); apply bpow_le; lia). set (M := bpow radix2 (emax - 20)) in *.
  apply (rel_mat_of (N3 := bdm_Num)). intros i j Hi Hj. pose proof (hom_finite i j Hi Hj) as F.
  destruct (corner_cases i j Hi Hj) as [(Ci & Cj)|[(Ci & ->)|[(-> & Cj)|(-> & ->)]]].
  - replace (mfun (tm M) i j) with ((102 / 100, 0%nat) : bdm) by (all_lt i Ci; all_lt j Cj; reflexivity). apply ufin_leaf; [exact F|apply hom_small; assumption|lra].
  - replace (mfun (tm M) i 3) with ((M, 0%nat) : bdm) by (all_lt i Ci; reflexivity). apply ufin_leaf; [exact F| |lra].
    rewrite (proj1 (hom_pos i Ci)). apply Hpos, Ci.
  - replace (mfun (tm M) 3 j) with ((1, 0%nat) : bdm) by (all_lt j Cj; reflexivity). apply ufin_leaf; [exact F| |lra].
    rewrite (proj1 (hom_low j Cj)). cbn. rewrite Rabs_R0. lra.
  - change (mfun (tm M) 3 3) with ((1, 0%nat) : bdm). apply ufin_leaf; [exact F| |lra]. rewrite (proj1 hom_one), Bone_correct, Rabs_R1. lra.
Qed.

Lemma ufin_bound (y : fl) t b' d M : ufin y t -> t = (b', d) -> (d <= 20)%nat -> b' <= M -> 1 <= M -> 2 * M < bpow radix2 emax -> is_finite y = true /\ Rabs (B2R y) <= 102 / 100 * M.
Proof.
  intros X -> D H HM L. destruct X as (B1 & A). pose proof (uro_small Hp11) as Us. pose proof (uro_pos (prec := prec)) as U0.
  pose proof (pow_lin Hp11 20 (203 / 10) ltac:(cbn; lra) ltac:(lra)) as PL. pose proof (pow_mono d 20 D : _ <= _ <= (1 + uro) ^ 20) as [_ PD].
  pose proof (pow_mono 0 d ltac:(lia) : _ <= _ <= (1 + uro) ^ d) as [_ P0]. rewrite pow_O in P0.
  assert (Q : (1 + uro) ^ d * b' <= 102 / 100 * M) by (apply Rmult_le_compat; lra).
  destruct A as [F V]; [lra| ]. split; [exact F|lra].
Qed.

Lemma square_ufin i j : (i < 4)%nat -> (j < 4)%nat -> is_finite (mfun (m44_mul x x) i j) = true /\ ((i < 3)%nat -> Rabs (B2R (mfun (m44_mul x x) i j)) <= 5 * bpow radix2 (emax - 20)).
Proof.
  intros Hi Hj. pose proof hom_ufin as UM.
  assert (M1 : 1024 <= bpow radix2 (emax - 20)) by (change 1024 with (bpow radix2 10); apply bpow_le; lia). 
  assert (M2 : bpow radix2 emax = 1048576 * bpow radix2 (emax - 20)) by (change 1048576 with (bpow radix2 20); rewrite <- bpow_plus; f_equal; ring).
  set (M := bpow radix2 (emax - 20)) in *.
  pose proof (rel_mul4 (N3 := bdm_Num) (fun x (_ : R) t => ufin x t) (fun _ _ _ _ _ _ A B => ufin_add Hp11 He4 _ _ _ _ A B)
       (fun _ _ _ _ _ _ A B => ufin_mul Hp11 He4 _ _ _ _ A B) x x r r (tm M) (tm M) UM UM) as D.
  pose proof (rel_mat_fun (N3 := bdm_Num) _ 4 4 _ _ _ D i j Hi Hj) as E. cbv beta in E. clear D UM.
  set (y := mfun (m44_mul x x) i j) in *. clearbody y M.
  assert (Q : is_finite y = true /\ Rabs (B2R y) <= 102 / 100 * (41 / 10 * M)).
  { all_lt i Hi; all_lt j Hj; lazy [tm m44_mul mfun vfun alist List.map List.nth ix0 ix1 ix2 ix3 ahd atl acons anil fst snd add mul bdm_Num Nat.add] in E;
    (eapply ufin_bound; [exact E|reflexivity|lia|lra|lra|lra]). }
  destruct Q as [Q1 Q2]. split; [exact Q1|lra].
Qed.

Let bd := hom_bd (101 / 100, 4%nat, / 1000 * uro) (Rabs (P 0%nat), 0%nat, 0) (Rabs (P 1%nat), 0%nat, 0) (Rabs (P 2%nat), 0%nat, 0) (1, 0%nat, 0).

Lemma hom_zerr : rel_mat zerr 4 4 x r bd.
Proof.
  apply rel_mat_of. intros i j Hi Hj. destruct (corner_cases i j Hi Hj) as [(Ci & Cj)|[(Ci & ->)|[(-> & Cj)|(-> & ->)]]].
  - replace (mfun bd i j) with (Some (101 / 100, 4%nat, / 1000 * uro) : bdz); [exact (hom_uerr i j Ci Cj)| ]. all_lt i Ci; all_lt j Cj; reflexivity.
  - replace (mfun bd i 3) with (Some (Rabs (P i), 0%nat, 0) : bdz) by (all_lt i Ci; reflexivity). destruct (hom_pos i Ci) as [-> ->]. apply uerr_leaf.
  - replace (mfun bd 3 j) with (None : bdz) by (all_lt j Cj; reflexivity). destruct (hom_low j Cj) as [-> ->]. split; reflexivity.
  - change (mfun bd 3 3) with (Some (1, 0%nat, 0) : bdz). destruct hom_one as [-> ->]. apply uerr_one.
Qed.

Lemma square_zerr i j : (i < 4)%nat -> (j < 4)%nat -> zerr (mfun (m44_mul x x) i j) (mfun (m44_mul r r) i j) (mfun (m44_mul bd bd) i j).
Proof.
  intros Hi Hj. pose proof (rel_mul4 zerr zerr_add zerr_mul x x r r bd bd hom_zerr hom_zerr) as D. exact (rel_mat_fun _ 4 4 _ _ _ D i j Hi Hj).
Qed.

Lemma hom_square : hom_close (m44_mul x x) (m44_mul r r).
Proof.
  pose proof (uro_pos (prec := prec)) as U. pose proof (uro_small Hp11) as Us. pose proof (eta_pos (prec := prec) (emax := emax)) as E0. pose proof (eta_tiny Hp11 He4) as Et.
  split; [intros i j Hi Hj; apply square_ufin; assumption| ].
  split; [ |split; [ |split; [ |split]]].
  - intros i j Hi Hj. pose proof (square_zerr i j ltac:(lia) ltac:(lia)) as Z.
    set (y := mfun (m44_mul x x) i j) in *. set (s := mfun (m44_mul r r) i j) in *. clearbody y s. clear - Z Hi Hj U Us E0 Et.
    assert (Z' : uerr y s (3 * (101 / 100 * (101 / 100)), 11%nat, 3 * (101 / 100 * (/ 1000 * uro) + 101 / 100 * (/ 1000 * uro) + / 1000 * uro * (/ 1000 * uro) + eta))).
    { revert Z. all_lt i Hi; all_lt j Hj; lazy [bd hom_bd m44_mul mfun vfun alist List.map List.nth ix0 ix1 ix2 ix3 ahd atl acons anil fst snd add mul bdz_Num bdu_Num zerr Nat.add Nat.max];
      intros Z; (eapply uerr_weaken; [exact Z|lra|lia|lra]). }
    assert (uro * uro <= / 2048 * uro) by (apply Rmult_le_compat_r; lra). eapply uerr_weaken; [exact Z'|lra|lia|lra].
  - intros i Hi. split; [apply square_ufin; lia| ]. pose proof (square_zerr i 3 ltac:(lia) ltac:(lia)) as Z.
    revert Z. generalize (mfun (m44_mul x x) i 3), (mfun (m44_mul r r) i 3). intros y s.
    all_lt i Hi; lazy [bd hom_bd m44_mul mfun vfun alist List.map List.nth ix0 ix1 ix2 ix3 ahd atl acons anil fst snd add mul bdz_Num zerr]; intros Z; eexists; exact Z.
  - intros j Hj. pose proof (square_zerr 3 j ltac:(lia) ltac:(lia)) as Z. destruct (square_ufin 3 j ltac:(lia) ltac:(lia)) as (F & _).
    revert Z F. generalize (mfun (m44_mul x x) 3 j), (mfun (m44_mul r r) 3 j). intros y s.
    all_lt j Hj; lazy [bd hom_bd m44_mul mfun vfun alist List.map List.nth ix0 ix1 ix2 ix3 ahd atl acons anil fst snd add mul bdz_Num zerr]; intros (Z1 & Z2) F; (split; [apply Z2, F|exact Z1]).
  - pose proof (square_zerr 3 3 ltac:(lia) ltac:(lia)) as Z.
    assert (R1 : mfun (m44_mul r r) 3 3 = 1) by (lazy [r homR homogeneous_from_rotation m44_mul mfun vfun alist List.map List.nth ix0 ix1 ix2 ix3 ahd atl acons anil fst snd add mul one zero R_Num]; ring).
    rewrite R1 in Z. revert Z. generalize (mfun (m44_mul x x) 3 3). intros y.
    lazy [bd hom_bd m44_mul mfun vfun alist List.map List.nth ix0 ix1 ix2 ix3 ahd atl acons anil fst snd add mul bdz_Num bdu_Num zerr Nat.add Nat.max]. intros Z.
    eapply uerr_weaken; [exact Z|lra|lia|lra].
  - lazy [r homR homogeneous_from_rotation m44_mul mfun vfun alist List.map List.nth ix0 ix1 ix2 ix3 ahd atl acons anil fst snd add mul one zero R_Num]. ring.
Qed.

Lemma hom_dets : is_finite (m44_det x) = true /\ Rabs (B2R (m44_det x) - 1) <= 18000 * uro + 304 / 100 * dl /\
  is_finite (m44_det (m44_mul x x)) = true /\ Rabs (B2R (m44_det (m44_mul x x)) - 1) <= 18000 * uro + 620 / 100 * dl.
Proof.
  pose proof (unit_N b dl Db Dl) as N. fold B in N.
  assert (D0 : 0 <= dl) by (eapply Rle_trans; [apply Rabs_pos|exact Db]).
  destruct (hom_close_det _ _ hom_of_unit) as (F1 & E1). destruct (hom_close_det _ _ hom_square) as (F2 & E2).
  rewrite det4_mul in E2. unfold r in E1, E2. rewrite homR_det in E1, E2.
  split; [exact F1|split; [ |split; [exact F2| ]]].
  - revert E1. generalize (B2R (m44_det x)). set (n := sq_sum 4 B) in *. clearbody n. intros y E1. replace (y - 1) with ((y - n ^ 3) + (n ^ 3 - 1)) by ring.
    eapply Rle_trans; [apply Rabs_triang| ]. apply Rplus_le_compat; [exact E1| ].
    replace (n ^ 3 - 1) with ((n - 1) * (n * n + n + 1)) by ring. rewrite Rabs_mult, Rmult_comm, (Rabs_pos_eq (n * n + n + 1)) by nra.
    apply Rmult_le_compat; try nra. apply Rabs_pos.
  - revert E2. generalize (B2R (m44_det (m44_mul x x))). set (n := sq_sum 4 B) in *. clearbody n. intros y E2. replace (y - 1) with ((y - n ^ 3 * n ^ 3) + (n ^ 3 * n ^ 3 - 1)) by ring.
    eapply Rle_trans; [apply Rabs_triang| ]. apply Rplus_le_compat; [exact E2| ].
    assert (N2 : 0 <= n * n + n + 1 <= 304 / 100) by nra. assert (N3 : 0 <= n ^ 3 + 1 <= 203031 / 100000).
    { assert (0 <= n * n <= 10201 / 10000) by nra. replace (n ^ 3) with (n * (n * n)) by ring. nra. }
    replace (n ^ 3 * n ^ 3 - 1) with ((n - 1) * ((n * n + n + 1) * (n ^ 3 + 1))) by ring. rewrite Rabs_mult, Rmult_comm, (Rabs_pos_eq ((n * n + n + 1) * (n ^ 3 + 1))) by (apply Rmult_le_pos; lra).
    apply Rmult_le_compat; try (apply Rmult_le_pos; lra); [apply Rabs_pos| |exact Db].
    apply Rle_trans with (304 / 100 * (203031 / 100000)); [apply Rmult_le_compat; lra|lra].
Qed.
End Hom.

Lemma is_rotation_h_eq (x : M44 fl) : is_rotation_h x = nearly_equal (m44_det x) one lit_1em6 && nearly_equal (m44_det (m44_mul x x)) one lit_1em6.
Proof. reflexivity. Qed.

(** ** [is_rotation_h] accepts the matrices of nearly unit quaternions *)
Lemma c88_is_rotation_h_unit : forall (b : Quaternion fl) (p : V3 fl) dl, dl <= / 100 ->
  (forall k, (k < 4)%nat -> is_finite (qcomp k b) = true) -> Rabs (sq_sum 4 (fun k => B2R (qcomp k b)) - 1) <= dl ->
  (forall k, (k < 3)%nat -> is_finite (vfun p k) = true /\ Rabs (B2R (vfun p k)) <= bpow radix2 (emax - 20)) ->
  is_finite (lit_1em6 : fl) = true -> 18000 * uro + 620 / 100 * dl <= B2R (lit_1em6 : fl) <= / 2 ->
  is_rotation_h (homogeneous_from_quaternion b p) = true.
Proof.
  intros b p dl Dl Fb Db Hpos F6 H6. destruct (hom_dets b p dl Fb Db Dl Hpos) as (F1 & E1 & F2 & E2).
  pose proof (uro_pos (prec := prec)) as U. assert (D0 : 0 <= dl) by (eapply Rle_trans; [apply Rabs_pos|exact Db]).
  set (x := homogeneous_from_quaternion b p) in *. clearbody x. rewrite is_rotation_h_eq.
  set (y := m44_det x) in *. set (z := m44_det (m44_mul x x)) in *. clearbody y z. set (e := lit_1em6 : fl) in *. clearbody e.
  rewrite (c88_nearly_one_accepts y e), (c88_nearly_one_accepts z e); try assumption; try reflexivity; lra.
Qed.

Lemma c88_is_rotation_h_normalized : forall (a b : Quaternion fl) (p : V3 fl), normalized a = false -> is_finite (q_norm2 a) = true -> q_normalize a = Some b ->
  (forall k, (k < 3)%nat -> is_finite (vfun p k) = true /\ Rabs (B2R (vfun p k)) <= bpow radix2 (emax - 20)) ->
  is_finite (lit_1em6 : fl) = true -> 18056 * uro <= B2R (lit_1em6 : fl) <= / 2 ->
  is_rotation_h (homogeneous_from_quaternion b p) = true.
Proof.
  intros a b p Na Fa E Hpos F6 H6. pose proof (uro_small Hp11) as Us. pose proof (uro_pos (prec := prec)) as U. destruct (c87_normalize Hp11 He4 a b Na Fa E) as (N & C).
  apply (c88_is_rotation_h_unit b p (9 * uro)); try assumption; [lra|intros k Hk; apply C, Hk|lra].
Qed.

(** what [is_rotation_h] answers [true] for: the computed determinants of the matrix and of its square are within three tolerances of one *)
Lemma c88_is_rotation_h_sound : forall x : M44 fl, is_finite (m44_det x) = true -> Rabs (B2R (m44_det x)) <= bpow radix2 (emax - 2) ->
  is_finite (m44_det (m44_mul x x)) = true -> Rabs (B2R (m44_det (m44_mul x x))) <= bpow radix2 (emax - 2) ->
  is_finite (lit_1em6 : fl) = true -> uro <= B2R (lit_1em6 : fl) <= / 8 -> is_rotation_h x = true ->
  Rabs (B2R (m44_det x) - 1) <= 3 * B2R (lit_1em6 : fl) /\ Rabs (B2R (m44_det (m44_mul x x)) - 1) <= 3 * B2R (lit_1em6 : fl).
Proof.
  intros x F1 L1 F2 L2 F6 H6 A. rewrite is_rotation_h_eq in A. apply andb_prop in A. destruct A as [A1 A2].
  set (y := m44_det x) in *. set (z := m44_det (m44_mul x x)) in *. clearbody y z. set (e := lit_1em6 : fl) in *. clearbody e.
  split; apply c88_nearly_one_sound; assumption.
Qed.
End F.

(** ** Concrete cases (f64) *)
#[local] Instance prec53 : Prec_gt_0 53 := eq_refl.
#[local] Instance emax1024 : Prec_lt_emax 53 1024 := eq_refl.
#[local] Notation f64 := (binary_float 53 1024).

(** the quarter turn about z: the matrix of the normalized quaternion does not pass [is_rotation] *)
Lemma c88_is_rotation_refuted : forall O : FOracle f64, exists a b : Quaternion f64,
  normalized a = false /\ is_finite (q_norm2 a) = true /\ q_normalize a = Some b /\ is_rotation (q_to_rotation b) = false.
Proof.
  intros O. exists (q_new (fofZ 1) [| fofZ 0; fofZ 0; fofZ 1 |]). eexists.
  split; [reflexivity|split; [vm_compute; reflexivity|split]].
  - apply q_normalize_some; [reflexivity|vm_compute; reflexivity].
  - vm_compute. reflexivity.
Qed.

(** a scaled shear has determinant one: it passes [is_rotation_h] and [is_rotation] and is not a rotation *)
Lemma c88_shear_refuted : forall O : FOracle f64, let r := [| [| fofZ 2; fofZ 7; fofZ 0 |]; [| fofZ 0; fofZ 1; fofZ 0 |]; [| fofZ 0; fofZ 0; Bdiv mode_NE (fofZ 1) (fofZ 2) |] |] : M33 f64 in
  is_rotation r = true /\ is_rotation_h (homogeneous_from_rotation r [| fofZ 0; fofZ 0; fofZ 0 |]) = true /\
  B2R (mfun r 0 0) * B2R (mfun r 0 0) + B2R (mfun r 1 0) * B2R (mfun r 1 0) + B2R (mfun r 2 0) * B2R (mfun r 2 0) = 4.
Proof.
  intros O r. split; [vm_compute; reflexivity|split].
  - assert (D : B2SF (m44_det (homogeneous_from_rotation r [| fofZ 0; fofZ 0; fofZ 0 |])) = B2SF (one : f64)) by (vm_compute; reflexivity).
    assert (D2 : B2SF (m44_det (m44_mul (homogeneous_from_rotation r [| fofZ 0; fofZ 0; fofZ 0 |]) (homogeneous_from_rotation r [| fofZ 0; fofZ 0; fofZ 0 |]))) = B2SF (one : f64)) by (vm_compute; reflexivity).
    apply B2SF_inj in D, D2. rewrite is_rotation_h_eq, D, D2, !c23_reflexive. reflexivity.
  - assert (E1 : mfun r 1 0 = B754_zero false) by (apply B2SF_inj; vm_compute; reflexivity).
    assert (E2 : mfun r 2 0 = B754_zero false) by (apply B2SF_inj; vm_compute; reflexivity).
    rewrite E1, E2. replace (B2R (mfun r 0 0)) with 2; [cbn; lra| ].
    assert (X : B2SF (mfun r 0 0) = SpecFloat.S754_finite false 4503599627370496 (-51)) by (vm_compute; reflexivity).
    destruct (mfun r 0 0) as [s|s| |s m e H]; try discriminate X. cbn in X. injection X as -> -> ->. cbn [B2R cond_Zopp]. unfold F2R. cbn [Fnum Fexp]. change (bpow radix2 (-51)) with (/ 2251799813685248). lra.
Qed.

(** the tolerance 1e-6 of f64 and the quarter turn about z, moved by 10^200 *)
Example C88_case : forall O : FOracle f64, (lit_1em6 : f64) = Bdiv mode_NE (fofZ 1) (fofZ 1000000) ->
  exists b : Quaternion f64, q_normalize (q_new (fofZ 1) [| fofZ 0; fofZ 0; fofZ 1 |] : Quaternion f64) = Some b /\
  is_rotation_h (homogeneous_from_quaternion b [| fofZ (10 ^ 200); fofZ 3; fofZ (- 10 ^ 200) |]) = true.
Proof.
  intros O H6. eexists. split; [apply q_normalize_some; [reflexivity|vm_compute; reflexivity]| ].
  match goal with |- context [homogeneous_from_quaternion ?b] => set (c := b) end.
  assert (F : is_finite (q_norm2 (q_new (fofZ 1) [| fofZ 0; fofZ 0; fofZ 1 |] : Quaternion f64)) = true) by (vm_compute; reflexivity).
  assert (C : q_normalize (q_new (fofZ 1) [| fofZ 0; fofZ 0; fofZ 1 |] : Quaternion f64) = Some c) by (apply q_normalize_some; [reflexivity|vm_compute; reflexivity]).
  assert (X6 : B2SF (lit_1em6 : f64) = SpecFloat.S754_finite false 4722366482869645 (-72)) by (rewrite H6; vm_compute; reflexivity).
  assert (Bd : forall n : Z, (- 10 ^ 200 <= n <= 10 ^ 200)%Z -> is_finite (fofZ n : f64) = true /\ Rabs (B2R (fofZ n : f64)) <= bpow radix2 (1024 - 20)).
  { intros n Hn. unfold fofZ. pose proof (binary_normalize_correct 53 1024 prec53 emax1024 mode_NE n 0 false) as Z. cbv zeta in Z.
    assert (B : Rabs (round radix2 (SpecFloat.fexp 53 1024) (round_mode mode_NE) (F2R (Defs.Float radix2 n 0))) <= bpow radix2 (1024 - 20)).
    { apply abs_round_le_generic; [apply fexp_correct; reflexivity|apply valid_rnd_round_mode|apply generic_format_bpow; vm_compute; discriminate| ].
      unfold F2R. cbn [Fnum Fexp bpow]. rewrite Rmult_1_r, <- abs_IZR. change (1024 - 20)%Z with 1004%Z. rewrite <- IZR_Zpower by lia. apply IZR_le.
      apply Z.le_trans with (10 ^ 200)%Z; [lia|vm_compute; discriminate]. }
    rewrite Rlt_bool_true in Z; [ |eapply Rle_lt_trans; [exact B|apply bpow_lt; lia]]. destruct Z as (Z1 & Z2 & _). split; [exact Z2|rewrite Z1; exact B]. }
  refine (c88_is_rotation_h_normalized (prec := 53) (emax := 1024) ltac:(lia) ltac:(lia) (q_new (fofZ 1) [| fofZ 0; fofZ 0; fofZ 1 |]) c _ eq_refl F C _ _ _).
  - intros k Hk. all_lt k Hk; apply Bd; split; vm_compute; discriminate.
  - rewrite <- is_finite_SF_B2SF, X6. reflexivity.
  - destruct (lit_1em6 : f64) as [s|s| |s m e H]; try discriminate X6. cbn in X6. injection X6 as -> -> ->. unfold FloatFacts.uro.
    change (bpow radix2 (1 - 53)) with (/ 4503599627370496). cbn [B2R cond_Zopp]. unfold F2R. cbn [Fnum Fexp]. change (bpow radix2 (-72)) with (/ 4722366482869645213696). lra.
Qed.

(** 1.01 against one, with tolerance 1/64: accepted, within the tolerance; the bound on accepted numbers applies *)
Example C88_nearly_case : forall O : FOracle f64, let x := Bdiv mode_NE (fofZ 101) (fofZ 100) : f64 in
  nearly_equal x one (p2 (-6)) = true /\ nearly_equal x one (p2 (-8)) = false /\ Rabs (B2R x - 1) <= 3 * B2R (p2 (-6)).
Proof.
  intros O x. split; [vm_compute; reflexivity|split; [vm_compute; reflexivity| ]].
  assert (X : B2SF x = SpecFloat.S754_finite false 4548635623644201 (-52)) by (vm_compute; reflexivity).
  assert (E : B2SF (p2 (-6)) = SpecFloat.S754_finite false 4503599627370496 (-58)) by (vm_compute; reflexivity).
  assert (N : nearly_equal x one (p2 (-6)) = true) by (vm_compute; reflexivity).
  apply (c88_nearly_one_sound (prec := 53) (emax := 1024)); [lia|lia|vm_compute; reflexivity|vm_compute; reflexivity| | |exact N].
  - clear N. clearbody x. destruct x as [s|s| |s m e H]; try discriminate X. cbn in X. injection X as -> -> ->. apply Rle_trans with (bpow radix2 1); [ |apply bpow_le; lia].
    cbn [B2R cond_Zopp]. unfold F2R. cbn [Fnum Fexp]. change (bpow radix2 (-52)) with (/ 4503599627370496). change (bpow radix2 1) with 2. rewrite Rabs_pos_eq; lra.
  - clear N X. revert E. generalize (p2 (-6)). clear. intros y E. destruct y as [s|s| |s m e H]; try discriminate E. cbn in E. injection E as -> -> ->.
    cbn [B2R cond_Zopp]. unfold F2R, FloatFacts.uro. cbn [Fnum Fexp]. change (bpow radix2 (-58)) with (/ 288230376151711744). change (bpow radix2 (1 - 53)) with (/ 4503599627370496). lra.
Qed.

(** f32: 1e-6 is about 17 unit roundoffs, and a normalized quaternion can fail [is_rotation_h] *)
#[local] Instance prec24 : Prec_gt_0 24 := eq_refl.
#[local] Instance emax128 : Prec_lt_emax 24 128 := eq_refl.
#[local] Notation f32 := (binary_float 24 128).

Lemma c88_is_rotation_h_f32_refuted : forall O : FOracle f32, (lit_1em6 : f32) = Bdiv mode_NE (fofZ 1) (fofZ 1000000) ->
  exists a b : Quaternion f32, normalized a = false /\ is_finite (q_norm2 a) = true /\ q_normalize a = Some b /\
  is_rotation_h (homogeneous_from_quaternion b [| fofZ 0; fofZ 0; fofZ 0 |]) = false.
Proof.
  intros O H6. exists (q_new (fofZ 323992) [| fofZ 1066229; fofZ 3034762; fofZ (-16713174) |]). eexists.
  split; [reflexivity|split; [vm_compute; reflexivity|split]].
  - unfold q_normalize. cbn [normalized q_new]. assert (Z : nearly_zero (q_norm2 (q_new (fofZ 323992) [| fofZ 1066229; fofZ 3034762; fofZ (-16713174) |] : Quaternion f32)) = false) by (vm_compute; reflexivity).
    rewrite Z. reflexivity.
  - rewrite is_rotation_h_eq, H6. vm_compute. reflexivity.
Qed.
