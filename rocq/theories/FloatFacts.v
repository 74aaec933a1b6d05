(** * FloatFacts: left-to-right sums of products, and their rounding errors *)

From Coq Require Import List Arith ZArith Reals Bool Lra Lia.
From Flocq Require Import Core Relative Plus_error IEEE754.BinarySingleNaN.
From Verif Require Import Base Scalar Vec Mat2 Mat3 Mat4 Mat5 Mat6 MatLoops MatOps RingDet Spec Entries InstF.
Open Scope sc_scope.

(** ** the order in which the code sums *)
Section Any.
Context {T : Type} {nT : Num T} {sT : Signed T} {fT : Float T}.

(** [f 0 * g 0 + f 1 * g 1 + ... + f (n-1) * g (n-1)], from left to right *)
Fixpoint dotl (n : nat) (f g : nat -> T) : T :=
  match n with
  | 0 => zero
  | S m => match m with 0 => f 0 * g 0 | _ => dotl m f g + f m * g m end
  end.

(** the third row of a product of 4x4 matrices starts with the second term *)
Definition ord (d : dim) (i k : nat) : nat :=
  match d with D4 => if Nat.eqb i 2 then Nat.modulo (k + 1) 4 else k | _ => k end.

Lemma d_vdot_dotl d (v w : arr T (dimn d)) : d_vdot d v w = dotl (dimn d) (vfun v) (vfun w).
Proof. destruct d; reflexivity. Qed.

Lemma d_mul_dotl d (A B : mat T (dimn d)) i j : i < dimn d -> j < dimn d ->
  mfun (d_mul d A B) i j
  = dotl (dimn d) (fun k => mfun A i (ord d i k)) (fun k => mfun B (ord d i k) j).
Proof.
  intros Hi Hj; destruct d; cbn [dimn] in *; all_lt i Hi; all_lt j Hj; reflexivity.
Qed.

Lemma d_mul_v_dotl d (A : mat T (dimn d)) v i : i < dimn d ->
  vfun (d_mul_v d A v) i = dotl (dimn d) (fun k => mfun A i k) (vfun v).
Proof. intros Hi; destruct d; cbn [dimn] in *; all_lt i Hi; reflexivity. Qed.

Lemma dotl_S n (f g : nat -> T) : 0 < n -> dotl (S n) f g = dotl n f g + f n * g n.
Proof. destruct n; [lia|reflexivity]. Qed.
End Any.

(** sums over a permuted index *)
Lemma sumn_ord {T} {nT : Num T} {sT : Signed T} (RT : RingLaws T) d i (f : nat -> T) :
  sumn (dimn d) (fun k => f (ord d i k)) = sumn (dimn d) f.
Proof.
  destruct d; try reflexivity. unfold ord. destruct (Nat.eqb i 2); [ |reflexivity].
  cbn [dimn sumn Nat.modulo Nat.divmod Nat.add fst snd Nat.sub].
  pose proof (Radd_comm RT) as C. pose proof (Radd_assoc RT) as A. pose proof (Radd_0_l RT) as Z.
  rewrite !Z. rewrite (C _ (f 0)). rewrite !A. reflexivity.
Qed.

(** ** rounding *)
Section F.
Context {prec emax : Z} {Hp : Prec_gt_0 prec} {He : Prec_lt_emax prec emax}.
Notation fl := (binary_float prec emax).
Notation emin := (3 - emax - prec)%Z.
Notation fe := (FLT_exp emin prec).
Notation rnd := (round radix2 fe ZnearestE).
Open Scope R_scope.

(** unit roundoff and half the least positive number *)
Definition uro : R := / 2 * bpow radix2 (1 - prec).
Definition eta : R := / 2 * bpow radix2 emin.

Lemma uro_pos : 0 < uro.
Proof. unfold uro. pose proof (bpow_gt_0 radix2 (1 - prec)). lra. Qed.
Lemma eta_pos : 0 < eta.
Proof. unfold eta. pose proof (bpow_gt_0 radix2 emin). lra. Qed.

Lemma fe_eq : SpecFloat.fexp prec emax = fe.
Proof. reflexivity. Qed.

Lemma plus_finite (x y : fl) : is_finite (Bplus mode_NE x y) = true ->
  is_finite x = true /\ is_finite y = true /\ B2R (Bplus mode_NE x y) = rnd (B2R x + B2R y).
Proof.
  intros F. destruct (is_finite x) eqn:Fx; [destruct (is_finite y) eqn:Fy| ].
  - repeat split. pose proof (Bplus_correct prec emax Hp He mode_NE x y Fx Fy) as C.
    destruct (Rlt_bool _ _) in C; [apply C| ]. destruct C as [C _].
    destruct (Bplus mode_NE x y); cbn in F, C; discriminate.
  - exfalso. destruct x as [sx|sx| |sx mx ex Hx]; try discriminate; destruct y as [sy|sy| |sy my ey Hy]; discriminate.
  - exfalso. destruct x as [sx|sx| |sx mx ex Hx]; try discriminate; destruct y as [sy|sy| |sy my ey Hy]; try discriminate.
    destruct sx, sy; discriminate.
Qed.

Lemma mult_finite (x y : fl) : is_finite (Bmult mode_NE x y) = true ->
  is_finite x = true /\ is_finite y = true /\ B2R (Bmult mode_NE x y) = rnd (B2R x * B2R y).
Proof.
  intros F. pose proof (Bmult_correct prec emax Hp He mode_NE x y) as C.
  destruct (Rlt_bool _ _) in C.
  - destruct C as (C1 & C2 & _). rewrite F in C2. symmetry in C2. apply andb_prop in C2 as [? ?]. auto.
  - exfalso. destruct (Bmult mode_NE x y); cbn in F, C; discriminate.
Qed.

Lemma format_B2R (x : fl) : generic_format radix2 fe (B2R x).
Proof. apply (generic_format_B2R prec emax). Qed.

Lemma plus_error (x y : fl) : is_finite (Bplus mode_NE x y) = true ->
  exists e, Rabs e <= uro /\ B2R (Bplus mode_NE x y) = (B2R x + B2R y) * (1 + e).
Proof.
  intros F. destruct (plus_finite x y F) as (_ & _ & ->).
  destruct (FLT_plus_error_N_ex radix2 emin prec (fun z => negb (Z.even z)) (B2R x) (B2R y) (format_B2R x) (format_B2R y)) as (e & Le & E).
  exists e. split; [ |exact E]. eapply Rle_trans; [exact Le| ].
  pose proof uro_pos as P. unfold u_ro. replace (- prec + 1)%Z with (1 - prec)%Z by ring. fold uro.
  apply (Rmult_le_reg_r (1 + uro)); [lra| ]. field_simplify; [nra|lra].
Qed.

Lemma mult_error (x y : fl) : is_finite (Bmult mode_NE x y) = true ->
  exists e h, Rabs e <= uro /\ Rabs h <= eta /\ B2R (Bmult mode_NE x y) = B2R x * B2R y * (1 + e) + h.
Proof.
  intros F. destruct (mult_finite x y F) as (_ & _ & ->).
  destruct (error_N_FLT radix2 emin prec Hp (fun z => negb (Z.even z)) (B2R x * B2R y)) as (e & h & Le & Lh & _ & E).
  exists e, h. unfold uro, eta. replace (1 - prec)%Z with (- prec + 1)%Z by ring. auto.
Qed.

(** the standard error analysis of a recursive sum of products *)
Lemma dotl_error n (f g : nat -> fl) : (0 < n)%nat -> is_finite (dotl n f g) = true ->
  (forall k, (k < n)%nat -> is_finite (f k) = true /\ is_finite (g k) = true)
  /\ let S := sum_f_R0 (fun k => B2R (f k) * B2R (g k)) (n - 1) in
     let A := sum_f_R0 (fun k => Rabs (B2R (f k) * B2R (g k))) (n - 1) in
     Rabs (B2R (dotl n f g) - S) <= ((1 + uro) ^ n - 1) * A + INR n * (1 + uro) ^ n * eta.
Proof.
  pose proof uro_pos as U. pose proof eta_pos as E0.
  induction n as [ |n IH]; [lia| ]. intros _ F. destruct n as [ |n].
  - cbn [dotl] in F. destruct (mult_finite _ _ F) as (F1 & F2 & _). split.
    { intros k Hk. replace k with 0%nat by lia. auto. }
    cbn [dotl Nat.sub sum_f_R0 pow INR]. destruct (mult_error _ _ F) as (e & h & Le & Lh & E).
    change (mul (f 0%nat) (g 0%nat)) with (Bmult mode_NE (f 0%nat) (g 0%nat)). rewrite E.
    replace (_ * (1 + e) + h - _) with (B2R (f 0%nat) * B2R (g 0%nat) * e + h) by ring.
    eapply Rle_trans; [apply Rabs_triang| ]. rewrite Rabs_mult.
    pose proof (Rabs_pos (B2R (f 0%nat) * B2R (g 0%nat))) as P.
    assert (Rabs (B2R (f 0%nat) * B2R (g 0%nat)) * Rabs e <= Rabs (B2R (f 0%nat) * B2R (g 0%nat)) * uro)
      by (apply Rmult_le_compat_l; assumption).
    assert (0 <= uro * eta) by nra. lra.
  - rewrite dotl_S in F by lia. change (is_finite (Bplus mode_NE (dotl (S n) f g) (Bmult mode_NE (f (S n)) (g (S n)))) = true) in F.
    destruct (plus_finite _ _ F) as (F1 & F2 & _). destruct (mult_finite _ _ F2) as (F3 & F4 & _).
    destruct (IH ltac:(lia) F1) as [IF IE]. split.
    { intros k Hk. destruct (Nat.eq_dec k (S n)) as [->|N]; [auto|apply IF; lia]. }
    cbv zeta in IE |- *. rewrite dotl_S by lia.
    change (add (dotl (S n) f g) (mul (f (S n)) (g (S n)))) with (Bplus mode_NE (dotl (S n) f g) (Bmult mode_NE (f (S n)) (g (S n)))).
    destruct (plus_error _ _ F) as (d & Ld & ->). destruct (mult_error _ _ F2) as (e & h & Le & Lh & ->).
    replace (S (S n) - 1)%nat with (S n) by lia. replace (S n - 1)%nat with n in IE by lia. cbn [sum_f_R0].
    set (s := B2R (dotl (S n) f g)) in *. set (S0 := sum_f_R0 (fun k => B2R (f k) * B2R (g k)) n) in *.
    set (A0 := sum_f_R0 (fun k => Rabs (B2R (f k) * B2R (g k))) n) in *.
    assert (SA : Rabs S0 <= A0) by apply Rsum_abs.
    set (p := B2R (f (S n)) * B2R (g (S n))) in *.
    set (G := (1 + uro) ^ S n) in *. change ((1 + uro) ^ S (S n)) with ((1 + uro) * G).
    assert (G1 : 1 + uro <= G).
    { unfold G. cbn [pow]. rewrite <- (Rmult_1_r (1 + uro)) at 1. apply Rmult_le_compat_l; [lra| ]. apply pow_R1_Rle. lra. }
    rewrite (S_INR (S n)). set (N := INR (S n)) in *. assert (N0 : 0 <= N) by apply pos_INR.
    clearbody s S0 A0 p G N. clear IH IF F F1 F2 F3 F4.
    replace ((s + (p * (1 + e) + h)) * (1 + d) - (S0 + p))
      with ((s - S0) * (1 + d) + S0 * d + p * (e + d + e * d) + h * (1 + d)) by ring.
    assert (D1 : Rabs (1 + d) <= 1 + uro) by (eapply Rle_trans; [apply Rabs_triang|rewrite Rabs_R1; lra]).
    assert (D2 : Rabs (e + d + e * d) <= uro * (2 + uro)).
    { eapply Rle_trans; [apply Rabs_triang| ]. rewrite Rabs_mult.
      assert (Rabs (e + d) <= uro + uro) by (eapply Rle_trans; [apply Rabs_triang|lra]).
      assert (Rabs e * Rabs d <= uro * uro) by (apply Rmult_le_compat; try assumption; apply Rabs_pos). lra. }
    assert (T1 : Rabs ((s - S0) * (1 + d)) <= ((G - 1) * A0 + N * G * eta) * (1 + uro)).
    { rewrite Rabs_mult. apply Rmult_le_compat; try assumption; apply Rabs_pos. }
    assert (T2 : Rabs (S0 * d) <= A0 * uro).
    { rewrite Rabs_mult. apply Rmult_le_compat; try assumption; apply Rabs_pos. }
    assert (T3 : Rabs (p * (e + d + e * d)) <= Rabs p * (uro * (2 + uro))).
    { rewrite Rabs_mult. apply Rmult_le_compat; try assumption; try apply Rabs_pos. lra. }
    assert (T4 : Rabs (h * (1 + d)) <= eta * (1 + uro)).
    { rewrite Rabs_mult. apply Rmult_le_compat; try assumption; apply Rabs_pos. }
    eapply Rle_trans; [apply Rabs_triang| ]. eapply Rle_trans; [apply Rplus_le_compat_r, Rabs_triang| ].
    eapply Rle_trans; [apply Rplus_le_compat_r, Rplus_le_compat_r, Rabs_triang| ].
    assert (X1 : Rabs p * (uro * (2 + uro)) <= ((1 + uro) * G - 1) * Rabs p).
    { rewrite (Rmult_comm _ (Rabs p)). apply Rmult_le_compat_l; [apply Rabs_pos| ].
      assert ((1 + uro) * (1 + uro) <= (1 + uro) * G) by (apply Rmult_le_compat_l; lra). lra. }
    assert (X2 : eta * (1 + uro) <= (1 + uro) * G * eta).
    { rewrite Rmult_comm. apply Rmult_le_compat_r; [lra| ]. rewrite <- (Rmult_1_r (1 + uro)) at 1. apply Rmult_le_compat_l; lra. }
    lra.
Qed.

(** [(1+u)^n - 1 <= n u / (1 - n u)], the usual [gamma_n] *)
Lemma pow_gamma n u : 0 < u -> INR n * u < 1 -> (1 + u) ^ n - 1 <= INR n * u / (1 - INR n * u).
Proof.
  intros U L.
  assert (B : 1 - INR n * u <= (1 - u) ^ n \/ 1 < u).
  { destruct (Rle_lt_dec u 1) as [Q|Q]; [left|right; exact Q]. clear L. induction n as [ |n IH]; [cbn; lra| ].
    rewrite S_INR. cbn [pow]. assert (0 <= (1 - u) ^ n) by (apply pow_le; lra). assert (0 <= INR n) by apply pos_INR.
    assert ((1 - u) * (1 - INR n * u) <= (1 - u) * (1 - u) ^ n) by (apply Rmult_le_compat_l; lra). nra. }
  destruct B as [B|B].
  - apply (Rmult_le_reg_r (1 - INR n * u)); [lra| ].
    replace (INR n * u / (1 - INR n * u) * (1 - INR n * u)) with (INR n * u) by (field; lra).
    assert (P : 0 < (1 + u) ^ n) by (apply pow_lt; lra).
    assert (X : (1 + u) ^ n * (1 - u) ^ n <= 1).
    { rewrite <- Rpow_mult_distr. replace ((1 + u) * (1 - u)) with (1 - u * u) by ring.
      destruct n as [ |n]; [cbn; lra| ]. assert (U1 : u < 1).
      { rewrite S_INR in L. assert (0 <= INR n * u) by (apply Rmult_le_pos; [apply pos_INR|lra]). lra. }
      apply Rle_trans with (1 ^ S n); [apply pow_incr; split; nra|rewrite pow1; lra]. }
    assert ((1 + u) ^ n * (1 - INR n * u) <= (1 + u) ^ n * (1 - u) ^ n) by (apply Rmult_le_compat_l; lra). lra.
  - destruct n as [ |n]; [cbn; lra| ]. rewrite S_INR in L. assert (0 <= INR n * u) by (apply Rmult_le_pos; [apply pos_INR|lra]). lra.
Qed.

End F.
