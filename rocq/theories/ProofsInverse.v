(** * ProofsInverse: C06, C07 (matrix inverse in exact real arithmetic) *)

From Coq Require Import List Arith Lia Bool Reals Lra.
From Verif Require Import Base Scalar Vec Mat2 Mat3 Mat4 Mat5 Mat6 Slices MatLoops MatOps
  RingDet Spec LoopFacts Entries DetEntries InstR RFacts InvFacts.
Import ListNotations.
Local Open Scope R_scope.

Lemma mul_adj_R n (M : nat -> nat -> R) i k : (i < n)%nat -> (k < n)%nat ->
  sumn n (fun j => M i j * cofactor n M k j) = ldet n M * delta i k.
Proof. destruct n; [lia| ]. apply (mul_adj R_ring). Qed.

Lemma adj_mul_R n (M : nat -> nat -> R) i k : (i < n)%nat -> (k < n)%nat ->
  sumn n (fun j => cofactor n M j i * M j k) = ldet n M * delta i k.
Proof. destruct n; [lia| ]. apply (adj_mul R_ring). Qed.

Section Props.
Context {K : RConsts} (OK : RConstsOk K).

Lemma c06_inverse_two_sided : forall d (A B : mat R (dimn d)),
  d_inverse d A = Ok (Some B) ->
  d_mul d A B = d_identity d /\ d_mul d B A = d_identity d.
Proof.
  intros d A B H.
  destruct (nearly_zero_cases OK (d_det d A)) as [[Z _]|(Z & _ & Hd)].
  { rewrite (inverse_none d A Z) in H. discriminate. }
  destruct (inverse_adjugate d A Z) as (B' & E & F).
  rewrite H in E. inversion E; subst B'. clear E.
  rewrite (d_det_ldet R_ring) in *.
  split; apply mfun_ext; intros i j Hi Hj; rewrite (d_mul_entry R_ring), d_identity_entry by assumption.
  - transitivity (sumn (dimn d) (fun k => mfun A i k * cofactor (dimn d) (mfun A) j k)
                  * / ldet (dimn d) (mfun A)).
    + rewrite <- (sumn_scal_r R_ring). apply sumn_ext. intros k Hk. rewrite F by assumption.
      cbn [mul R_Num]. unfold Rdiv. ring.
    + rewrite mul_adj_R by assumption. field_simplify; [reflexivity|exact Hd].
  - transitivity (sumn (dimn d) (fun k => cofactor (dimn d) (mfun A) k i * mfun A k j)
                  * / ldet (dimn d) (mfun A)).
    + rewrite <- (sumn_scal_r R_ring). apply sumn_ext. intros k Hk. rewrite F by assumption.
      cbn [mul R_Num]. unfold Rdiv. ring.
    + rewrite adj_mul_R by assumption. field_simplify; [reflexivity|exact Hd].
Qed.

Lemma c06_inverse_total : forall d (A : mat R (dimn d)), d_inverse d A <> Panic.
Proof.
  intros d A. destruct (nearly_zero_cases OK (d_det d A)) as [[Z _]|(Z & _ & _)].
  - rewrite (inverse_none d A Z). discriminate.
  - destruct (inverse_adjugate d A Z) as (B & E & _). rewrite E. discriminate.
Qed.

(** The exact condition: [None] iff the determinant is below [epsilon] in
    absolute value. *)
Lemma c07_inverse_none_iff : forall d (A : mat R (dimn d)),
  d_inverse d A = Ok None <-> Rabs (ldet (dimn d) (mfun A)) < r_eps.
Proof.
  intros d A. rewrite <- (d_det_ldet R_ring d A).
  destruct (nearly_zero_cases OK (d_det d A)) as [[Z L]|(Z & L & _)].
  - rewrite (inverse_none d A Z). tauto.
  - destruct (inverse_adjugate d A Z) as (B & E & _). rewrite E.
    split; [discriminate|lra].
Qed.

(** the holding half: singular matrices give [None] *)
Lemma c07_inverse_partial : forall d (A : mat R (dimn d)),
  ldet (dimn d) (mfun A) = 0 -> d_inverse d A = Ok None.
Proof.
  intros d A H. apply c07_inverse_none_iff. rewrite H, Rabs_R0. apply (eps_pos K OK).
Qed.

(** whatever inverse exists is the one returned, unless the test rejects it *)
Lemma c07_inverse_unique : forall d (A B : mat R (dimn d)),
  d_mul d A B = d_identity d -> r_eps <= Rabs (ldet (dimn d) (mfun A)) ->
  d_inverse d A = Ok (Some B).
Proof.
  intros d A B H L. rewrite <- (d_det_ldet R_ring) in L.
  apply (nearly_zero_false OK) in L. destruct (inverse_adjugate d A L) as (B' & E & _).
  rewrite E. f_equal. f_equal. destruct (c06_inverse_two_sided d A B' E) as [_ I].
  apply mfun_ext. intros i j Hi Hj.
  assert (E1 : forall a b, (a < dimn d)%nat -> (b < dimn d)%nat ->
     mmul (dimn d) (mfun A) (mfun B) a b = delta a b).
  { intros a b Ha Hb. rewrite <- (d_identity_entry d a b) by assumption. rewrite <- H.
    rewrite (d_mul_entry R_ring) by assumption. reflexivity. }
  assert (E2 : forall a b, (a < dimn d)%nat -> (b < dimn d)%nat ->
     mmul (dimn d) (mfun B') (mfun A) a b = delta a b).
  { intros a b Ha Hb. rewrite <- (d_identity_entry d a b) by assumption. rewrite <- I.
    rewrite (d_mul_entry R_ring) by assumption. reflexivity. }
  transitivity (mmul (dimn d) (mfun B') (mmul (dimn d) (mfun A) (mfun B)) i j).
  - rewrite <- (mmul_id_r R_ring (dimn d) (mfun B') i j) at 1 by assumption.
    apply mmul_ext; [reflexivity|intros; symmetry; apply E1; assumption].
  - rewrite <- (mmul_assoc R_ring).
    rewrite <- (mmul_id_l R_ring (dimn d) (mfun B) i j) by assumption.
    apply mmul_ext; [intros; apply E2; assumption|reflexivity].
Qed.

(** For every size there is an invertible matrix (its exact inverse is given)
    for which [inverse()] is [None]. *)
Lemma c07_inverse_refuted : forall d, exists A B : mat R (dimn d),
  ldet (dimn d) (mfun A) <> 0
  /\ d_mul d A B = d_identity d /\ d_mul d B A = d_identity d
  /\ d_inverse d A = Ok None.
Proof.
  intros d. pose proof (eps_pos K OK) as Hp. pose proof (eps_small K OK) as Hs.
  pose (x := r_eps).
  exists (d_scale d (d_identity d) x), (d_scale d (d_identity d) (/ x)).
  assert (E : ldet (dimn d) (mfun (d_scale d (d_identity d) x)) = prodn (dimn d) (fun _ => x)).
  { rewrite (ldet_ext _ _ (fun i j => x * delta i j)).
    - rewrite (ldet_scale R_ring), (ldet_id R_ring). cbn [mul one R_Num]. ring.
    - intros i j Hi Hj. rewrite d_scale_entry, d_identity_entry by assumption. cbn. ring. }
  assert (P : forall n, 0 < @prodn R R_Num (S n) (fun _ => x) <= x).
  { induction n as [ |n IH]; [cbn; fold x in Hp; lra| ].
    change (@prodn R R_Num (S (S n)) (fun _ => x)) with (@prodn R R_Num (S n) (fun _ => x) * x).
    fold x in Hp, Hs. split; [apply Rmult_lt_0_compat; lra|nra]. }
  assert (P2 : forall n, 0 < @prodn R R_Num (S (S n)) (fun _ => x) < x).
  { intros n. specialize (P n).
    change (@prodn R R_Num (S (S n)) (fun _ => x)) with (@prodn R R_Num (S n) (fun _ => x) * x).
    fold x in Hp, Hs. split; [apply Rmult_lt_0_compat; lra|nra]. }
  assert (N : exists n, dimn d = S (S n)) by (destruct d; cbn; eauto). destruct N as [n N].
  specialize (P2 n). rewrite <- N in P2.
  split; [rewrite E; lra| ].
  assert (M : forall y z, y * z = 1 ->
    d_mul d (d_scale d (d_identity d) y) (d_scale d (d_identity d) z) = d_identity d).
  { intros y z Hyz. apply mfun_ext. intros i j Hi Hj.
    rewrite (d_mul_entry R_ring), d_identity_entry by assumption. unfold mmul.
    rewrite (sumn_ext _ _ (fun k => delta i k * (y * z * delta k j))).
    - rewrite (sumn_delta_l R_ring) by assumption. cbn. rewrite Hyz. ring.
    - intros k Hk. rewrite !d_scale_entry, !d_identity_entry by assumption. cbn. ring. }
  fold x in Hp.
  split; [apply M; field; lra| ]. split; [apply M; field; lra| ].
  apply c07_inverse_none_iff. rewrite E, Rabs_right by lra. fold x. lra.
Qed.

End Props.

(** ** Concrete case: an inverse returned in f64 arithmetic's gate *)
Example C06_example : d_inverse (fT := R_Float f64_consts) D3
    [| [| 1; 2; 3 |]; [| 0; 1; 4 |]; [| 5; 6; 0 |] |]
  = Ok (Some [| [| -24; 18; 5 |]; [| 20; -15; -4 |]; [| -5; 4; 1 |] |]).
Proof.
  apply (c07_inverse_unique f64_consts_ok D3).
  - lazy -[Rplus Rmult Ropp Rminus IZR]. repeat match goal with |- (_, _) = (_, _) => refine (f_equal2 pair _ _) end;
      try reflexivity; ring.
  - pose proof (eps_small _ f64_consts_ok). 
    match goal with |- _ <= Rabs ?t => replace t with 1 end.
    + rewrite Rabs_R1. lra.
    + lazy -[Rplus Rmult Ropp Rminus IZR]. ring.
Qed.
