(** * QSeries: the complex exponential as a series, by components

    [cpow x s n] is the n-th power of x + i s. The Cauchy product comes from
    Coquelicot. *)

From Coq Require Import Arith Lia Reals Lra.
From Coquelicot Require Import Coquelicot.
From Verif Require Import ExpSeries.
Local Open Scope R_scope.

Fixpoint cpow (x s : R) (n : nat) : R * R :=
  match n with
  | O => (1, 0)
  | S n => (x * fst (cpow x s n) - s * snd (cpow x s n), x * snd (cpow x s n) + s * fst (cpow x s n))
  end.

Lemma infinite_sum_series f l : infinite_sum f l <-> is_series f l.
Proof. split; intros H; apply is_series_Reals; exact H. Qed.

(** ** powers of i s *)
Lemma cpow_im_even s k : cpow 0 s (2 * k) = ((-1) ^ k * (s * s) ^ k, 0).
Proof.
  induction k as [ |k IH]; [cbn; f_equal; ring| ].
  replace (2 * S k)%nat with (S (S (2 * k))) by lia. cbn [cpow]. rewrite IH. cbn [fst snd pow]. f_equal; ring.
Qed.
Lemma cpow_im_odd s k : cpow 0 s (2 * k + 1) = (0, (-1) ^ k * (s * s) ^ k * s).
Proof.
  replace (2 * k + 1)%nat with (S (2 * k)) by lia. cbn [cpow]. rewrite cpow_im_even. cbn [fst snd]. f_equal; ring.
Qed.

Lemma infinite_sum_0 f : (forall k, f k = 0) -> infinite_sum f 0.
Proof.
  intros H e He. exists 0%nat. intros n _. rewrite (sum_eq f (fun _ => 0) n) by (intros; apply H).
  replace (sum_f_R0 (fun _ => 0) n) with 0; [unfold R_dist; rewrite Rminus_diag_eq, Rabs_R0; auto| ].
  induction n as [ |n IH]; cbn; [reflexivity|rewrite <- IH; ring].
Qed.

Lemma cos_im s : infinite_sum (fun n => fst (cpow 0 s n) / INR (fact n)) (cos s).
Proof.
  rewrite <- (Rplus_0_r (cos s)). apply infinite_sum_even_odd.
  - apply (infinite_sum_ext (fun n => (-1) ^ n / INR (fact (2 * n)) * (s * s) ^ n)); [ |apply cos_series].
    intros k. rewrite cpow_im_even. cbn [fst]. unfold Rdiv. ring.
  - apply infinite_sum_0. intros k. rewrite cpow_im_odd. cbn [fst]. unfold Rdiv. ring.
Qed.

Lemma sin_im s : infinite_sum (fun n => snd (cpow 0 s n) / INR (fact n)) (sin s).
Proof.
  rewrite <- (Rplus_0_l (sin s)). apply infinite_sum_even_odd.
  - apply infinite_sum_0. intros k. rewrite cpow_im_even. cbn [snd]. unfold Rdiv. ring.
  - destruct (Req_dec s 0) as [->|N].
    + rewrite sin_0. apply infinite_sum_0. intros k. rewrite cpow_im_odd. cbn [snd]. unfold Rdiv. ring.
    + replace (sin s) with (s * (sin s / s) + 0) by (field; exact N).
      apply (infinite_sum_affine (fun n => (-1) ^ n / INR (fact (2 * n + 1)) * (s * s) ^ n)); [ |apply sin_series, N].
      intros k. rewrite cpow_im_odd. cbn [snd]. unfold Rdiv. destruct (Nat.eqb k 0); ring.
Qed.

Lemma cpow_im_bound s n : Rabs (fst (cpow 0 s n)) <= Rabs s ^ n /\ Rabs (snd (cpow 0 s n)) <= Rabs s ^ n.
Proof.
  induction n as [ |n [IH1 IH2]]; cbn [cpow fst snd pow].
  - rewrite Rabs_R1, Rabs_R0. lra.
  - pose proof (Rabs_pos s).
    replace (0 * fst (cpow 0 s n) - s * snd (cpow 0 s n)) with (- (s * snd (cpow 0 s n))) by ring.
    replace (0 * snd (cpow 0 s n) + s * fst (cpow 0 s n)) with (s * fst (cpow 0 s n)) by ring.
    rewrite Rabs_Ropp, !Rabs_mult. split; apply Rmult_le_compat_l; assumption.
Qed.

Lemma exp_is_series x : is_series (fun n => x ^ n / INR (fact n)) (exp x).
Proof.
  apply (is_series_ext (fun n => scal (pow_n x n) (/ INR (fact n)))); [ |exact (is_exp_Reals x)].
  intros n. rewrite pow_n_pow. reflexivity.
Qed.

Lemma fact_pos n : 0 < / INR (fact n).
Proof. apply Rinv_0_lt_compat, INR_fact_lt_0. Qed.

Lemma exp_abs_series (a : nat -> R) y : (forall n, Rabs (a n) <= Rabs y ^ n) ->
  ex_series (fun n => Rabs (a n / INR (fact n))).
Proof.
  intros H. apply (ex_series_le (V := R_CompleteNormedModule) _ (fun n => Rabs y ^ n / INR (fact n))).
  - intros n. change (norm ?x) with (Rabs x). rewrite Rabs_Rabsolu. unfold Rdiv. rewrite Rabs_mult.
    rewrite (Rabs_pos_eq (/ INR (fact n))) by (left; apply fact_pos).
    apply Rmult_le_compat_r; [left; apply fact_pos|apply H].
  - eexists. apply exp_is_series.
Qed.

(** ** the binomial theorem as a recurrence for the convolution *)
Definition conv (a b : nat -> R) (n : nat) : R := sum_f_R0 (fun k => a k * b (n - k)%nat) n.

Lemma sum_first f n : sum_f_R0 f (S n) = f 0%nat + sum_f_R0 (fun k => f (S k)) n.
Proof. induction n as [ |n IH]; [cbn; ring| ]. cbn [sum_f_R0] in *. rewrite IH. ring. Qed.

Lemma conv_step (a b c : nat -> R) x y n :
  (forall k, INR (S k) * a (S k) = x * a k) -> (forall k, INR (S k) * b (S k) = y * c k) ->
  INR (S n) * conv a b (S n) = x * conv a b n + y * conv a c n.
Proof.
  intros Ha Hb. unfold conv. rewrite scal_sum.
  rewrite (sum_eq _ (fun k => INR k * (a k * b (S n - k)%nat) + INR (S n - k) * (a k * b (S n - k)%nat))).
  2:{ intros k Hk. replace (INR (S n)) with (INR k + INR (S n - k)) by (rewrite <- plus_INR; f_equal; lia). ring. }
  rewrite sum_plus. f_equal.
  - rewrite sum_first. replace (INR 0) with 0 by reflexivity. rewrite Rmult_0_l, Rplus_0_l, scal_sum. apply sum_eq. intros k Hk.
    replace (S n - S k)%nat with (n - k)%nat by lia. rewrite <- Rmult_assoc, Ha. ring.
  - change (sum_f_R0 ?f (S n)) with (sum_f_R0 f n + f (S n)). cbv beta. replace (S n - S n)%nat with 0%nat by lia.
    replace (INR 0) with 0 by reflexivity. rewrite Rmult_0_l, Rplus_0_r, scal_sum. apply sum_eq. intros k Hk.
    replace (S n - k)%nat with (S (n - k)) by lia.
    transitivity (a k * (INR (S (n - k)) * b (S (n - k)))); [ring|rewrite Hb; ring].
Qed.

Lemma fact_div a n : INR (S n) * (a / INR (fact (S n))) = a / INR (fact n).
Proof.
  rewrite fact_simpl, mult_INR. pose proof (INR_fact_neq_0 n). pose proof (not_0_INR (S n) ltac:(lia)). field. auto.
Qed.

Lemma cpow_conv x s n :
  conv (fun k => x ^ k / INR (fact k)) (fun k => fst (cpow 0 s k) / INR (fact k)) n = fst (cpow x s n) / INR (fact n)
  /\ conv (fun k => x ^ k / INR (fact k)) (fun k => snd (cpow 0 s k) / INR (fact k)) n = snd (cpow x s n) / INR (fact n).
Proof.
  induction n as [ |n [IH1 IH2]]; [unfold conv; cbn; split; field| ].
  assert (P : forall k, INR (S k) * (x ^ S k / INR (fact (S k))) = x * (x ^ k / INR (fact k))).
  { intros k. rewrite fact_div. cbn [pow]. unfold Rdiv. ring. }
  assert (N := not_0_INR (S n) ltac:(lia)).
  split; apply (Rmult_eq_reg_l (INR (S n))); try exact N.
  - rewrite (conv_step _ _ (fun k => snd (cpow 0 s k) / INR (fact k)) x (- s)); [ |exact P| ].
    + rewrite IH1, IH2, fact_div. cbn [cpow fst]. unfold Rdiv. ring.
    + intros k. rewrite fact_div. cbn [cpow fst]. unfold Rdiv. ring.
  - rewrite (conv_step _ _ (fun k => fst (cpow 0 s k) / INR (fact k)) x s); [ |exact P| ].
    + rewrite IH1, IH2, fact_div. cbn [cpow snd]. unfold Rdiv. ring.
    + intros k. rewrite fact_div. cbn [cpow snd]. unfold Rdiv. ring.
Qed.

Lemma cexp_series x s :
  infinite_sum (fun n => fst (cpow x s n) / INR (fact n)) (exp x * cos s)
  /\ infinite_sum (fun n => snd (cpow x s n) / INR (fact n)) (exp x * sin s).
Proof.
  assert (A : ex_series (fun n => Rabs (x ^ n / INR (fact n)))).
  { apply (exp_abs_series _ x). intros n. rewrite RPow_abs. apply Rle_refl. }
  split; apply infinite_sum_series.
  - apply (is_series_ext (conv (fun k => x ^ k / INR (fact k)) (fun k => fst (cpow 0 s k) / INR (fact k)))).
    + intros n. apply cpow_conv.
    + apply is_series_mult; [apply exp_is_series|apply infinite_sum_series, cos_im|exact A| ].
      apply (exp_abs_series _ s). intros n. apply cpow_im_bound.
  - apply (is_series_ext (conv (fun k => x ^ k / INR (fact k)) (fun k => snd (cpow 0 s k) / INR (fact k)))).
    + intros n. apply cpow_conv.
    + apply is_series_mult; [apply exp_is_series|apply infinite_sum_series, sin_im|exact A| ].
      apply (exp_abs_series _ s). intros n. apply cpow_im_bound.
Qed.

(** ** even and odd parts *)
Lemma infinite_sum_even f l : (forall k, f (2 * k + 1)%nat = 0) -> infinite_sum f l ->
  infinite_sum (fun k => f (2 * k)%nat) l.
Proof.
  intros Z H e He. destruct (H e He) as [N HN]. exists N. intros n Hn. specialize (HN (2 * n + 1)%nat ltac:(lia)).
  rewrite sum_even_odd in HN. rewrite (sum_eq (fun k => f (2 * k + 1)%nat) (fun _ => 0)) in HN by (intros; apply Z).
  replace (sum_f_R0 (fun _ => 0) n) with 0 in HN; [now rewrite Rplus_0_r in HN| ].
  clear. induction n as [ |n IH]; cbn; [reflexivity|rewrite <- IH; ring].
Qed.
Lemma infinite_sum_odd f l : (forall k, f (2 * k)%nat = 0) -> infinite_sum f l ->
  infinite_sum (fun k => f (2 * k + 1)%nat) l.
Proof.
  intros Z H e He. destruct (H e He) as [N HN]. exists N. intros n Hn. specialize (HN (2 * n + 1)%nat ltac:(lia)).
  rewrite sum_even_odd in HN. rewrite (sum_eq (fun k => f (2 * k)%nat) (fun _ => 0)) in HN by (intros; apply Z).
  replace (sum_f_R0 (fun _ => 0) n) with 0 in HN; [now rewrite Rplus_0_l in HN| ].
  clear. induction n as [ |n IH]; cbn; [reflexivity|rewrite <- IH; ring].
Qed.

Lemma infinite_sum_lin f g a b l m : infinite_sum f l -> infinite_sum g m ->
  infinite_sum (fun k => a * f k + b * g k) (a * l + b * m).
Proof.
  rewrite !infinite_sum_series. intros F G.
  apply (is_series_plus (fun k => a * f k) (fun k => b * g k)).
  - exact (is_series_scal (K := R_AbsRing) (V := R_NormedModule) a f l F).
  - exact (is_series_scal (K := R_AbsRing) (V := R_NormedModule) b g m G).
Qed.

(** multiplication by i: the powers of i z and of -i z, z = a + i m *)
Lemma cpow_i a m k :
  cpow (- m) a (2 * k) = ((-1) ^ k * fst (cpow a m (2 * k)), (-1) ^ k * snd (cpow a m (2 * k)))
  /\ cpow m (- a) (2 * k) = ((-1) ^ k * fst (cpow a m (2 * k)), (-1) ^ k * snd (cpow a m (2 * k))).
Proof.
  induction k as [ |k [IH1 IH2]]; [cbn; split; f_equal; ring| ].
  replace (2 * S k)%nat with (S (S (2 * k))) by lia. cbn [cpow]. rewrite IH1, IH2. cbn [fst snd pow].
  generalize ((-1) ^ k) (fst (cpow a m (2 * k))) (snd (cpow a m (2 * k))). intros e x y. split; f_equal; ring.
Qed.
Lemma cpow_i_odd a m k :
  cpow (- m) a (2 * k + 1) = (- ((-1) ^ k * snd (cpow a m (2 * k + 1))), (-1) ^ k * fst (cpow a m (2 * k + 1)))
  /\ cpow m (- a) (2 * k + 1) = ((-1) ^ k * snd (cpow a m (2 * k + 1)), - ((-1) ^ k * fst (cpow a m (2 * k + 1)))).
Proof.
  replace (2 * k + 1)%nat with (S (2 * k)) by lia. cbn [cpow]. destruct (cpow_i a m k) as [-> ->]. cbn [fst snd].
  generalize ((-1) ^ k) (fst (cpow a m (2 * k))) (snd (cpow a m (2 * k))). intros e x y. split; f_equal; ring.
Qed.

Lemma ccos_series a m :
  infinite_sum (fun n => (-1) ^ n / INR (fact (2 * n)) * fst (cpow a m (2 * n))) (cos a * cosh m)
  /\ infinite_sum (fun n => (-1) ^ n / INR (fact (2 * n)) * snd (cpow a m (2 * n))) (- sin a * sinh m).
Proof.
  destruct (cexp_series (- m) a) as [A1 A2]. destruct (cexp_series m (- a)) as [B1 B2].
  rewrite cos_neg in B1. rewrite sin_neg in B2. split.
  - replace (cos a * cosh m) with (/ 2 * (exp (- m) * cos a) + / 2 * (exp m * cos a)) by (unfold cosh; field).
    pose proof (infinite_sum_lin _ _ (/ 2) (/ 2) _ _ A1 B1) as X.
    apply infinite_sum_even in X.
    + revert X. apply infinite_sum_ext. intros k. cbv beta. destruct (cpow_i a m k) as [-> ->]. cbn [fst]. unfold Rdiv. lra.
    + intros k. destruct (cpow_i_odd a m k) as [-> ->]. cbn [fst]. unfold Rdiv. ring.
  - replace (- sin a * sinh m) with (/ 2 * (exp (- m) * sin a) + / 2 * (exp m * - sin a)) by (unfold sinh; field).
    pose proof (infinite_sum_lin _ _ (/ 2) (/ 2) _ _ A2 B2) as X.
    apply infinite_sum_even in X.
    + revert X. apply infinite_sum_ext. intros k. cbv beta. destruct (cpow_i a m k) as [-> ->]. cbn [snd]. unfold Rdiv. lra.
    + intros k. destruct (cpow_i_odd a m k) as [-> ->]. cbn [snd]. unfold Rdiv. ring.
Qed.

Lemma csin_series a m :
  infinite_sum (fun n => (-1) ^ n / INR (fact (2 * n + 1)) * fst (cpow a m (2 * n + 1))) (sin a * cosh m)
  /\ infinite_sum (fun n => (-1) ^ n / INR (fact (2 * n + 1)) * snd (cpow a m (2 * n + 1))) (cos a * sinh m).
Proof.
  destruct (cexp_series (- m) a) as [A1 A2]. destruct (cexp_series m (- a)) as [B1 B2].
  rewrite cos_neg in B1. rewrite sin_neg in B2. split.
  - replace (sin a * cosh m) with (/ 2 * (exp (- m) * sin a) + - / 2 * (exp m * - sin a)) by (unfold cosh; field).
    pose proof (infinite_sum_lin _ _ (/ 2) (- / 2) _ _ A2 B2) as X.
    apply infinite_sum_odd in X.
    + revert X. apply infinite_sum_ext. intros k. cbv beta. destruct (cpow_i_odd a m k) as [-> ->]. cbn [snd]. unfold Rdiv. lra.
    + intros k. destruct (cpow_i a m k) as [-> ->]. cbn [snd]. unfold Rdiv. ring.
  - replace (cos a * sinh m) with (- / 2 * (exp (- m) * cos a) + / 2 * (exp m * cos a)) by (unfold sinh; field).
    pose proof (infinite_sum_lin _ _ (- / 2) (/ 2) _ _ A1 B1) as X.
    apply infinite_sum_odd in X.
    + revert X. apply infinite_sum_ext. intros k. cbv beta. destruct (cpow_i_odd a m k) as [-> ->]. cbn [fst]. unfold Rdiv. lra.
    + intros k. destruct (cpow_i a m k) as [-> ->]. cbn [fst]. unfold Rdiv. ring.
Qed.
