(** * ExpSeries: power series that sum to sines and cosines

    The specification of the matrix exponential, as an entrywise convergent
    series, and the closed form for matrices whose powers satisfy
    [A^(k+4) = - t^2 A^(k+2)]. *)

From Coq Require Import Arith Lia Reals Lra.
From Verif Require Import Scalar RingDet InstR.
Local Open Scope R_scope.

(** Specification: powers of a matrix given by its entries, and "E is the sum
    of the series A^k / k!" *)
Fixpoint mpow (n : nat) (A : nat -> nat -> R) (k : nat) (i j : nat) : R :=
  match k with
  | 0%nat => if Nat.eqb i j then 1 else 0
  | S k => sumn n (fun l => A i l * mpow n A k l j)
  end.

Definition is_mexp (n : nat) (A E : nat -> nat -> R) : Prop :=
  forall i j, (i < n)%nat -> (j < n)%nat ->
  infinite_sum (fun k => mpow n A k i j / INR (fact k)) (E i j).

(** ** sums of even and odd terms *)
Lemma sum_even_odd (f : nat -> R) n :
  sum_f_R0 f (2 * n + 1) = sum_f_R0 (fun k => f (2 * k)%nat) n + sum_f_R0 (fun k => f (2 * k + 1)%nat) n.
Proof.
  induction n as [ |n IH]; [reflexivity| ].
  replace (2 * S n + 1)%nat with (S (S (2 * n + 1))) by lia.
  change (sum_f_R0 f (S (S (2 * n + 1)))) with (sum_f_R0 f (2 * n + 1) + f (S (2 * n + 1)) + f (S (S (2 * n + 1)))).
  rewrite IH. cbn [sum_f_R0]. replace (S (2 * n + 1)) with (2 * S n)%nat by lia.
  replace (S (2 * S n)) with (2 * S n + 1)%nat by lia. ring.
Qed.

Lemma infinite_sum_even_odd f E O :
  infinite_sum (fun k => f (2 * k)%nat) E -> infinite_sum (fun k => f (2 * k + 1)%nat) O ->
  infinite_sum f (E + O).
Proof.
  intros HE HO e He. destruct (HE (e / 2)) as [N1 H1]; [lra| ]. destruct (HO (e / 2)) as [N2 H2]; [lra| ].
  exists (2 * (N1 + N2) + 2)%nat. intros n Hn. unfold R_dist in *.
  destruct (Nat.Even_or_Odd n) as [[m Em]|[m Em]].
  - destruct m as [ |m]; [lia| ].
    replace n with (S (2 * m + 1)) by lia. cbn [sum_f_R0]. rewrite sum_even_odd.
    specialize (H1 (S m) ltac:(lia)). specialize (H2 m ltac:(lia)). cbn [sum_f_R0] in H1.
    replace (S (2 * m + 1)) with (2 * S m)%nat by lia.
    revert H1 H2. generalize (sum_f_R0 (fun k => f (2 * k)%nat) m) (sum_f_R0 (fun k => f (2 * k + 1)%nat) m) (f (2 * S m)%nat).
    intros a b c. unfold Rabs. repeat destruct Rcase_abs; lra.
  - subst n. rewrite sum_even_odd. specialize (H1 m ltac:(lia)). specialize (H2 m ltac:(lia)).
    revert H1 H2. generalize (sum_f_R0 (fun k => f (2 * k)%nat) m) (sum_f_R0 (fun k => f (2 * k + 1)%nat) m).
    intros a b. unfold Rabs. repeat destruct Rcase_abs; lra.
Qed.

Lemma infinite_sum_ext f g l : (forall k, f k = g k) -> infinite_sum f l -> infinite_sum g l.
Proof.
  intros H Hf e He. destruct (Hf e He) as [N HN]. exists N. intros n Hn.
  rewrite <- (sum_eq f g n) by (intros; apply H). apply HN, Hn.
Qed.

(** scaling a series and changing its first term *)
Lemma infinite_sum_affine (f g : nat -> R) l s c :
  (forall k, g k = s * f k + (if Nat.eqb k 0 then c else 0)) ->
  infinite_sum f l -> infinite_sum g (s * l + c).
Proof.
  intros H Hf.
  assert (S : forall n, sum_f_R0 g n = s * sum_f_R0 f n + c).
  { induction n as [ |n IH]; cbn [sum_f_R0]; rewrite H; cbn [Nat.eqb]; [ring|rewrite IH; ring]. }
  intros e He. destruct (Hf (e / (1 + Rabs s))) as [N HN].
  { apply Rdiv_lt_0_compat; [exact He|pose proof (Rabs_pos s); lra]. }
  exists N. intros n Hn. specialize (HN n Hn). unfold R_dist in *. rewrite S.
  replace (s * sum_f_R0 f n + c - (s * l + c)) with (s * (sum_f_R0 f n - l)) by ring.
  rewrite Rabs_mult. pose proof (Rabs_pos s) as P. pose proof (Rabs_pos (sum_f_R0 f n - l)) as P2.
  apply Rle_lt_trans with ((1 + Rabs s) * Rabs (sum_f_R0 f n - l)); [nra| ].
  apply (Rmult_lt_compat_l (1 + Rabs s)) in HN; [ |lra].
  replace ((1 + Rabs s) * (e / (1 + Rabs s))) with e in HN by (field; lra). exact HN.
Qed.

Lemma cos_series t : infinite_sum (fun n => (-1) ^ n / INR (fact (2 * n)) * (t * t) ^ n) (cos t).
Proof. unfold cos. destruct (exist_cos (Rsqr t)) as [x H]. exact H. Qed.

Lemma sin_series t : t <> 0 ->
  infinite_sum (fun n => (-1) ^ n / INR (fact (2 * n + 1)) * (t * t) ^ n) (sin t / t).
Proof.
  intros N. unfold sin. destruct (exist_sin (Rsqr t)) as [x H].
  replace (t * x / t) with x by (field; exact N). exact H.
Qed.

Lemma pow_neg n x : (- x) ^ n = (-1) ^ n * x ^ n.
Proof. replace (- x) with (-1 * x) by ring. apply Rpow_mult_distr. Qed.

(** the closed form *)
Lemma exp_closed_form (a : nat -> R) t p q : t <> 0 ->
  (forall k, a (2 * k + 2)%nat = (- (t * t)) ^ k * p) ->
  (forall k, a (2 * k + 3)%nat = (- (t * t)) ^ k * q) ->
  infinite_sum (fun k => a k / INR (fact k))
    (a 0%nat + a 1%nat + (1 - cos t) / (t * t) * p + (t - sin t) / (t * t * t) * q).
Proof.
  intros N H2 H3.
  replace (a 0%nat + a 1%nat + (1 - cos t) / (t * t) * p + (t - sin t) / (t * t * t) * q)
    with ((- (p / (t * t)) * cos t + (a 0%nat + p / (t * t)))
          + (- (q / (t * t)) * (sin t / t) + (a 1%nat + q / (t * t)))) by (field; exact N).
  assert (TT : t * t <> 0) by (apply Rmult_integral_contrapositive; split; exact N).
  apply infinite_sum_even_odd.
  - apply (infinite_sum_affine (fun n => (-1) ^ n / INR (fact (2 * n)) * (t * t) ^ n)); [ |apply cos_series].
    intros [ |k].
    + change (2 * 0)%nat with 0%nat. change (INR (fact 0)) with 1. cbn [Nat.eqb pow]. field. exact N.
    + cbn [Nat.eqb]. replace (2 * S k)%nat with (2 * k + 2)%nat by lia. rewrite H2, pow_neg.
      generalize (INR_fact_neq_0 (2 * k + 2)). generalize (INR (fact (2 * k + 2))). intros F HF.
      cbn [pow]. field. split; assumption.
  - apply (infinite_sum_affine (fun n => (-1) ^ n / INR (fact (2 * n + 1)) * (t * t) ^ n)); [ |apply sin_series, N].
    intros [ |k].
    + change (2 * 0 + 1)%nat with 1%nat. change (INR (fact 1)) with 1. cbn [Nat.eqb pow]. field. exact N.
    + cbn [Nat.eqb]. replace (2 * S k + 1)%nat with (2 * k + 3)%nat by lia. rewrite H3, pow_neg.
      generalize (INR_fact_neq_0 (2 * k + 3)). generalize (INR (fact (2 * k + 3))). intros F HF.
      cbn [pow]. field. split; assumption.
Qed.

(** a terminating series *)
Lemma exp_nilpotent (a : nat -> R) : (forall k, a (S (S k)) = 0) ->
  infinite_sum (fun k => a k / INR (fact k)) (a 0%nat + a 1%nat).
Proof.
  intros H.
  assert (S : forall n, sum_f_R0 (fun k => a k / INR (fact k)) (S n) = a 0%nat + a 1%nat).
  { induction n as [ |n IH]; [cbn; field| ].
    change (sum_f_R0 (fun k => a k / INR (fact k)) (S (S n)))
      with (sum_f_R0 (fun k => a k / INR (fact k)) (S n) + a (S (S n)) / INR (fact (S (S n)))).
    rewrite IH, H. unfold Rdiv. ring. }
  intros e He. exists 1%nat. intros n Hn. destruct n as [ |n]; [lia| ]. unfold R_dist.
  rewrite S, Rminus_diag_eq, Rabs_R0; [exact He|reflexivity].
Qed.

(** the sum of a series is unique *)
Lemma is_mexp_unique n A E F : is_mexp n A E -> is_mexp n A F ->
  forall i j, (i < n)%nat -> (j < n)%nat -> E i j = F i j.
Proof.
  intros HE HF i j Hi Hj. exact (uniqueness_sum _ _ _ (HE i j Hi Hj) (HF i j Hi Hj)).
Qed.

(** ** closed forms for matrices *)
Lemma mpow_recur n A c : (forall i j, (i < n)%nat -> (j < n)%nat -> mpow n A 4 i j = c * mpow n A 2 i j) ->
  forall k i j, (i < n)%nat -> (j < n)%nat -> mpow n A (k + 4) i j = c * mpow n A (k + 2) i j.
Proof.
  intros H. induction k as [ |k IH]; [exact H| ]. intros i j Hi Hj.
  change (S k + 4)%nat with (S (k + 4)). change (S k + 2)%nat with (S (k + 2)).
  cbn [mpow]. transitivity (sumn n (fun l => c * (A i l * mpow n A (k + 2) l j))).
  - apply sumn_ext. intros l Hl. rewrite IH by assumption. cbn [mul R_Num]. ring.
  - apply (sumn_scal R_ring).
Qed.

Lemma mexp_closed n A t : t <> 0 ->
  (forall i j, (i < n)%nat -> (j < n)%nat -> mpow n A 4 i j = - (t * t) * mpow n A 2 i j) ->
  is_mexp n A (fun i j => mpow n A 0 i j + mpow n A 1 i j + (1 - cos t) / (t * t) * mpow n A 2 i j
                          + (t - sin t) / (t * t * t) * mpow n A 3 i j).
Proof.
  intros N H i j Hi Hj. pose proof (mpow_recur n A _ H) as Rc.
  apply (exp_closed_form (fun k => mpow n A k i j)); [exact N| | ].
  - induction k as [ |k IH]; [change (2 * 0 + 2)%nat with 2%nat; rewrite pow_O; ring| ].
    replace (2 * S k + 2)%nat with (2 * k + 4)%nat by lia. rewrite Rc, IH by assumption. cbn [pow]. ring.
  - induction k as [ |k IH]; [change (2 * 0 + 3)%nat with 3%nat; rewrite pow_O; ring| ].
    replace (2 * S k + 3)%nat with ((2 * k + 1) + 4)%nat by lia. rewrite Rc by assumption.
    replace (2 * k + 1 + 2)%nat with (2 * k + 3)%nat by lia. rewrite IH. cbn [pow]. ring.
Qed.

Lemma mexp_nilpotent n A : (forall i j, (i < n)%nat -> (j < n)%nat -> mpow n A 2 i j = 0) ->
  is_mexp n A (fun i j => mpow n A 0 i j + mpow n A 1 i j).
Proof.
  intros H i j Hi Hj. apply (exp_nilpotent (fun k => mpow n A k i j)).
  enough (X : forall k a b, (a < n)%nat -> (b < n)%nat -> mpow n A (k + 2) a b = 0).
  { intros k. replace (S (S k)) with (k + 2)%nat by lia. apply X; assumption. }
  induction k as [ |k IH]; [exact H| ]. intros a b Ha Hb. change (S k + 2)%nat with (S (k + 2)). cbn [mpow].
  transitivity (sumn n (fun l => 0 * A a l)).
  - apply sumn_ext. intros l Hl. rewrite IH by assumption. cbn [mul R_Num]. ring.
  - rewrite (sumn_scal R_ring). cbn [mul R_Num]. ring.
Qed.

Lemma is_mexp_ext n A E F : (forall i j, (i < n)%nat -> (j < n)%nat -> E i j = F i j) ->
  is_mexp n A E -> is_mexp n A F.
Proof. intros H HE i j Hi Hj. rewrite <- H by assumption. now apply HE. Qed.

Lemma is_mexp_ext_l n A B E : (forall i j, (i < n)%nat -> (j < n)%nat -> A i j = B i j) ->
  is_mexp n A E -> is_mexp n B E.
Proof.
  intros H HE.
  assert (P : forall k i j, (i < n)%nat -> (j < n)%nat -> mpow n A k i j = mpow n B k i j).
  { induction k as [ |k IH]; intros i j Hi Hj; [reflexivity| ]. cbn [mpow]. apply sumn_ext. intros l Hl.
    rewrite IH, H by assumption. reflexivity. }
  intros i j Hi Hj. eapply infinite_sum_ext; [ |apply HE; assumption].
  intros k. cbv beta. now rewrite P.
Qed.
