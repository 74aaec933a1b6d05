(** * InvFacts: [inverse()] of every size over the reals is the adjugate
      divided by the determinant *)

From Coq Require Import List Arith Lia Bool Reals Lra Ring.
From Verif Require Import Base Scalar Vec Mat2 Mat3 Mat4 Mat5 Mat6 Slices MatLoops MatOps
  RingDet Spec LoopFacts Entries DetEntries ProofsLoops InstR RFacts.
Import ListNotations.
Local Open Scope R_scope.

(** A double loop that writes [g j i] in cell [(j, i)]. *)
Lemma fill_matrix_T {T} {nT : Num T} n (body : nat -> nat -> mat T n -> outcome (mat T n))
  (g : nat -> nat -> T) m0 :
  (forall i j m, (i < n)%nat -> (j < n)%nat ->
     exists m', body i j m = Ok m' /\ mset m j i (g j i) = Ok m') ->
  exists m', for_ 0 n m0 (fun i m => for_ 0 n m (fun j m => body i j m)) = Ok m'
    /\ forall a b, (a < n)%nat -> (b < n)%nat -> mfun m' a b = g a b.
Proof.
  intros Hb.
  destruct (for_inv (fun i (m : mat T n) =>
      forall a b, (b < i)%nat -> (a < n)%nat -> (b < n)%nat -> mfun m a b = g a b)
    (fun i m => for_ 0 n m (fun j m => body i j m)) 0 n m0) as (m' & E & H).
  - lia.
  - intros; lia.
  - intros i m Hi Hm.
    destruct (for_inv (fun j (m : mat T n) =>
       forall a b, (a < n)%nat -> (b < n)%nat -> (b < i)%nat \/ (b = i /\ a < j)%nat ->
         mfun m a b = g a b)
      (fun j m => body i j m) 0 n m) as (m1 & E1 & H1).
    + lia.
    + intros a b Ha Hb' [ | ]; [apply Hm; lia|lia].
    + intros j m2 Hj Hm2. destruct (Hb i j m2 ltac:(lia) ltac:(lia)) as (m3 & E3 & S3).
      exists m3. split; [exact E3| ]. intros a b Ha Hb' Hc.
      destruct (mset_fun n m2 j i (g j i) ltac:(lia) ltac:(lia)) as (m4 & E4 & F4).
      rewrite S3 in E4. inversion E4; subst m4. rewrite F4 by assumption.
      destruct (Nat.eqb_spec a j) as [->| ], (Nat.eqb_spec b i) as [->| ]; cbn [andb];
        try reflexivity; apply Hm2; auto; lia.
    + exists m1. split; [exact E1| ]. intros a b Ha Ha' Hb'. apply H1; auto. lia.
  - exists m'. split; [exact E| ]. intros a b Ha Hb'. apply H; auto.
Qed.

Lemma bind_Ok {A B} (a : A) (f : A -> outcome B) : bind (Ok a) f = f a.
Proof. reflexivity. Qed.

Section Inv.
Context {K : RConsts} (OK : RConstsOk K).

Lemma mfun_of_mget n (A : mat R n) i j x : (i < n)%nat -> (j < n)%nat ->
  mget A i j = Ok x -> mfun A i j = x.
Proof. intros Hi Hj H. rewrite mfun_mget in H by assumption. congruence. Qed.

Lemma sub44_det (A : M44 R) i j : (i < 4)%nat -> (j < 4)%nat ->
  exists s, m44_get_submatrix A (i, j) = Ok s /\ m33_det s = ldet 3 (minor i j (mfun A)).
Proof.
  intros Hi Hj. destruct (submatrix_44 A i j Hi Hj) as (s & E & F). exists s. split; [exact E| ].
  rewrite (m33_det_ldet R_ring). apply ldet_ext. intros a b Ha Hb. unfold minor.
  apply mfun_of_mget; [assumption|assumption| ]. rewrite F by assumption.
  apply mfun_mget; apply skip_lt; assumption.
Qed.

Lemma sub55_det (A : M55 R) i j : (i < 5)%nat -> (j < 5)%nat ->
  exists s, m55_get_submatrix A (i, j) = Ok s /\ m44_det s = ldet 4 (minor i j (mfun A)).
Proof.
  intros Hi Hj. destruct (submatrix_55 A i j Hi Hj) as (s & E & F). exists s. split; [exact E| ].
  rewrite (m44_det_ldet R_ring). apply ldet_ext. intros a b Ha Hb. unfold minor.
  apply mfun_of_mget; [assumption|assumption| ]. rewrite F by assumption.
  apply mfun_mget; apply skip_lt; assumption.
Qed.

Lemma sub66_det (A : M66 R) i j : (i < 6)%nat -> (j < 6)%nat ->
  exists s, m66_get_submatrix A (i, j) = Ok s /\ m55_det s = ldet 5 (minor i j (mfun A)).
Proof.
  intros Hi Hj. destruct (submatrix_66 A i j Hi Hj) as (s & E & F). exists s. split; [exact E| ].
  rewrite (m55_det_ldet R_ring). apply ldet_ext. intros a b Ha Hb. unfold minor.
  apply mfun_of_mget; [assumption|assumption| ]. rewrite F by assumption.
  apply mfun_mget; apply skip_lt; assumption.
Qed.

Lemma sgn_parity k : @sgn R _ _ k = if Nat.eqb (k mod 2) 0 then 1 else -1.
Proof.
  assert (G : forall n, @sgn R _ _ (2 * n)%nat = 1).
  { induction n as [ |n IH]; [reflexivity| ].
    replace (2 * S n)%nat with (S (S (2 * n))) by lia. rewrite !sgn_S, IH. cbn. ring. }
  rewrite (Nat.div_mod k 2) at 1 by lia.
  pose proof (Nat.mod_upper_bound k 2 ltac:(lia)).
  rewrite (sgn_add R_ring), G. destruct (k mod 2) as [ |[ | ]]; [cbn; ring|cbn; ring|lia].
Qed.


Lemma inverse_22 (A : M22 R) : nearly_zero (m22_det A) = false ->
  exists B, m22_inverse A = Ok (Some B) /\
  forall i j, (i < 2)%nat -> (j < 2)%nat ->
    mfun B i j = cofactor 2 (mfun A) j i / m22_det A.
Proof.
  intros H. unfold m22_inverse. rewrite H. cbn [negb]. eexists. split; [reflexivity| ].
  set (x := m22_det A). clearbody x. clear H.
  destr22 A. intros i j Hi Hj.
  all_lt i Hi; all_lt j Hj; unfold Rdiv; lazy -[Rplus Rmult Ropp Rinv IZR Rminus]; ring.
Qed.

Lemma inverse_33 (A : M33 R) : nearly_zero (m33_det A) = false ->
  exists B, m33_inverse A = Ok (Some B) /\
  forall i j, (i < 3)%nat -> (j < 3)%nat ->
    mfun B i j = cofactor 3 (mfun A) j i / m33_det A.
Proof.
  intros H. unfold m33_inverse. rewrite H. cbn [negb].
  set (x := m33_det A). clearbody x. clear H.
  destr33 A. eexists. split; [lazy; reflexivity| ]. intros i j Hi Hj.
  all_lt i Hi; all_lt j Hj; unfold Rdiv; lazy -[Rplus Rmult Ropp Rinv IZR Rminus]; ring.
Qed.

Lemma inverse_44 (A : M44 R) : nearly_zero (m44_det A) = false ->
  exists B, m44_inverse A = Ok (Some B) /\
  forall i j, (i < 4)%nat -> (j < 4)%nat ->
    mfun B i j = cofactor 4 (mfun A) j i / m44_det A.
Proof.
  intros H. unfold m44_inverse. rewrite H. cbn [negb].
  set (x := m44_det A). clearbody x. clear H.
  assert (HD : exists D : nat -> nat -> R,
    (forall i j, (i < 4)%nat -> (j < 4)%nat ->
       exists s, m44_get_submatrix A (i, j) = Ok s /\ m33_det s = D i j)
    /\ forall i j, cofactor 4 (mfun A) i j = sgn (i + j) * D i j).
  { exists (fun i j => ldet 3 (minor i j (mfun A))). split; [apply sub44_det|reflexivity]. }
  destruct HD as (D & SD & CD).
  destruct (SD 0%nat 0%nat) as (s00 & -> & E00); [lia|lia| ]. rewrite bind_Ok.
  destruct (SD 1%nat 0%nat) as (s10 & -> & E10); [lia|lia| ]. rewrite bind_Ok.
  destruct (SD 2%nat 0%nat) as (s20 & -> & E20); [lia|lia| ]. rewrite bind_Ok.
  destruct (SD 3%nat 0%nat) as (s30 & -> & E30); [lia|lia| ]. rewrite bind_Ok.
  destruct (SD 0%nat 1%nat) as (s01 & -> & E01); [lia|lia| ]. rewrite bind_Ok.
  destruct (SD 1%nat 1%nat) as (s11 & -> & E11); [lia|lia| ]. rewrite bind_Ok.
  destruct (SD 2%nat 1%nat) as (s21 & -> & E21); [lia|lia| ]. rewrite bind_Ok.
  destruct (SD 3%nat 1%nat) as (s31 & -> & E31); [lia|lia| ]. rewrite bind_Ok.
  destruct (SD 0%nat 2%nat) as (s02 & -> & E02); [lia|lia| ]. rewrite bind_Ok.
  destruct (SD 1%nat 2%nat) as (s12 & -> & E12); [lia|lia| ]. rewrite bind_Ok.
  destruct (SD 2%nat 2%nat) as (s22 & -> & E22); [lia|lia| ]. rewrite bind_Ok.
  destruct (SD 3%nat 2%nat) as (s32 & -> & E32); [lia|lia| ]. rewrite bind_Ok.
  destruct (SD 0%nat 3%nat) as (s03 & -> & E03); [lia|lia| ]. rewrite bind_Ok.
  destruct (SD 1%nat 3%nat) as (s13 & -> & E13); [lia|lia| ]. rewrite bind_Ok.
  destruct (SD 2%nat 3%nat) as (s23 & -> & E23); [lia|lia| ]. rewrite bind_Ok.
  destruct (SD 3%nat 3%nat) as (s33 & -> & E33); [lia|lia| ]. rewrite bind_Ok.
  rewrite E00, E10, E20, E30, E01, E11, E21, E31, E02, E12, E22, E32, E03, E13, E23, E33.
  eexists. split; [reflexivity| ]. intros i j Hi Hj.
  rewrite CD.
  all_lt i Hi; all_lt j Hj; unfold Rdiv; lazy -[Rplus Rmult Ropp Rinv IZR Rminus]; ring.
Qed.

Lemma inverse_55 (A : M55 R) : nearly_zero (m55_det A) = false ->
  exists B, m55_inverse A = Ok (Some B) /\
  forall i j, (i < 5)%nat -> (j < 5)%nat ->
    mfun B i j = cofactor 5 (mfun A) j i / m55_det A.
Proof.
  intros H. unfold m55_inverse. rewrite H. cbn [negb].
  set (x := m55_det A). clearbody x. clear H.
  destruct (fill_matrix_T 5 (fun i j cofactors =>
      let sign := if Nat.eqb ((i + j) mod 2) 0 then one else neg one in
      s <- m55_get_submatrix A (i, j) ;;
      mset cofactors j i (mul sign (m44_det s)))
    (fun a b => cofactor 5 (mfun A) b a) m55_zeros) as (B & E & F).
  { intros i j m Hi Hj. destruct (sub55_det A i j Hi Hj) as (s & -> & Es). cbv zeta. cbn [bind].
    rewrite Es. unfold cofactor. rewrite sgn_parity. cbn [mul one neg R_Num R_Signed Nat.sub].
    destruct (mset_ok 5 m j i ((if Nat.eqb ((i + j) mod 2) 0 then 1 else -1)
       * ldet 4 (minor i j (mfun A))) Hj Hi) as (m' & Em).
    exists m'. split; exact Em. }
  cbv zeta in E |- *. rewrite E. cbn [bind]. eexists. split; [reflexivity| ]. intros i j Hi Hj.
  rewrite <- F by assumption. etransitivity; [apply (d_div_entry D5); assumption|reflexivity].
Qed.

Lemma inverse_66 (A : M66 R) : nearly_zero (m66_det A) = false ->
  exists B, m66_inverse A = Ok (Some B) /\
  forall i j, (i < 6)%nat -> (j < 6)%nat ->
    mfun B i j = cofactor 6 (mfun A) j i / m66_det A.
Proof.
  intros H. unfold m66_inverse. rewrite H. cbn [negb].
  set (x := m66_det A). clearbody x. clear H.
  destruct (fill_matrix_T 6 (fun i j cofactors =>
      let sign := if Nat.eqb ((i + j) mod 2) 0 then one else neg one in
      s <- m66_get_submatrix A (i, j) ;;
      mset cofactors j i (mul sign (m55_det s)))
    (fun a b => cofactor 6 (mfun A) b a) m66_zeros) as (B & E & F).
  { intros i j m Hi Hj. destruct (sub66_det A i j Hi Hj) as (s & -> & Es). cbv zeta. cbn [bind].
    rewrite Es. unfold cofactor. rewrite sgn_parity. cbn [mul one neg R_Num R_Signed Nat.sub].
    destruct (mset_ok 6 m j i ((if Nat.eqb ((i + j) mod 2) 0 then 1 else -1)
       * ldet 5 (minor i j (mfun A))) Hj Hi) as (m' & Em).
    exists m'. split; exact Em. }
  cbv zeta in E |- *. rewrite E. cbn [bind]. eexists. split; [reflexivity| ]. intros i j Hi Hj.
  rewrite <- F by assumption. etransitivity; [apply (d_scale_entry D6); assumption| ].
  cbn [dimn]. generalize (mfun B i j). intros y. unfold recip.
  cbn [mul div one R_Num]. unfold Rdiv. ring.
Qed.

(** [inverse()] with a determinant that passes the test *)
Lemma inverse_adjugate d (A : mat R (dimn d)) : nearly_zero (d_det d A) = false ->
  exists B, d_inverse d A = Ok (Some B) /\
  forall i j, (i < dimn d)%nat -> (j < dimn d)%nat ->
    mfun B i j = cofactor (dimn d) (mfun A) j i / d_det d A.
Proof.
  destruct d; [apply inverse_22|apply inverse_33|apply inverse_44|apply inverse_55|apply inverse_66].
Qed.

Lemma inverse_none d (A : mat R (dimn d)) : nearly_zero (d_det d A) = true ->
  d_inverse d A = Ok None.
Proof.
  destruct d; cbn [d_inverse d_det dimn]; intros H;
    [unfold m22_inverse|unfold m33_inverse|unfold m44_inverse|unfold m55_inverse|unfold m66_inverse];
    rewrite H; reflexivity.
Qed.

End Inv.
