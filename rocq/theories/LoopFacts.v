(** * LoopFacts: rules for loops and array updates *)

From Coq Require Import List Arith Lia Bool.
From Verif Require Import Base Scalar RingDet Spec.
Import ListNotations.

Lemma bind_ok {A B} (x : outcome A) (f : A -> outcome B) b :
  bind x f = Ok b <-> exists a, x = Ok a /\ f a = Ok b.
Proof.
  split.
  - destruct x as [a| ]; cbn; intros H; [exists a; auto | discriminate].
  - intros (a & -> & H). exact H.
Qed.

(** ** Loop rules *)

Lemma for_from_inv {S : Type} (P : nat -> S -> Prop) body k : forall i s,
  P i s ->
  (forall j s, i <= j < i + k -> P j s -> exists s', body j s = Ok s' /\ P (Datatypes.S j) s') ->
  exists s', for_from i k body s = Ok s' /\ P (i + k)%nat s'.
Proof.
  induction k as [ |k IH]; intros i s H0 Hs; cbn.
  - exists s. rewrite Nat.add_0_r. auto.
  - destruct (Hs i s ltac:(lia) H0) as (s1 & -> & H1). cbn.
    destruct (IH (Datatypes.S i) s1 H1) as (s2 & E & H2).
    + intros j t Hj Hp. apply Hs; [lia|exact Hp].
    + exists s2. split; [exact E| ]. now rewrite <- Nat.add_succ_comm.
Qed.

Lemma for_inv {S : Type} (P : nat -> S -> Prop) body lo hi s :
  lo <= hi -> P lo s ->
  (forall j s, lo <= j < hi -> P j s -> exists s', body j s = Ok s' /\ P (Datatypes.S j) s') ->
  exists s', for_ lo hi s body = Ok s' /\ P hi s'.
Proof.
  intros Hle H0 Hs. unfold for_.
  destruct (for_from_inv P body (hi - lo) lo s H0) as (s' & E & H).
  - intros j t Hj. apply Hs. lia.
  - exists s'. split; [exact E| ]. now replace (lo + (hi - lo))%nat with hi in H by lia.
Qed.

(** invariant of a run that is known to succeed *)
Lemma for_from_ok_inv {S : Type} (P : nat -> S -> Prop) body k : forall i s s',
  for_from i k body s = Ok s' -> P i s ->
  (forall j s s1, i <= j < i + k -> P j s -> body j s = Ok s1 -> P (Datatypes.S j) s1) ->
  P (i + k)%nat s'.
Proof.
  induction k as [ |k IH]; intros i s s' E H0 Hs; cbn in E.
  - inversion E; subst. now rewrite Nat.add_0_r.
  - apply bind_ok in E as (s1 & E1 & E2).
    rewrite <- Nat.add_succ_comm. apply (IH (Datatypes.S i) s1 s' E2).
    + apply (Hs i s s1); auto. lia.
    + intros j t t1 Hj. apply Hs. lia.
Qed.

Lemma for_ok_inv {S : Type} (P : nat -> S -> Prop) body lo hi s s' :
  for_ lo hi s body = Ok s' -> lo <= hi -> P lo s ->
  (forall j s s1, lo <= j < hi -> P j s -> body j s = Ok s1 -> P (Datatypes.S j) s1) ->
  P hi s'.
Proof.
  unfold for_. intros E Hle H0 Hs.
  pose proof (for_from_ok_inv P body (hi - lo) lo s s' E H0) as H.
  replace (lo + (hi - lo))%nat with hi in H by lia. apply H.
  intros j t t1 Hj. apply Hs. lia.
Qed.

Lemma for_empty {S : Type} body lo hi (s : S) : hi <= lo -> for_ lo hi s body = Ok s.
Proof. intros H. unfold for_. now replace (hi - lo)%nat with 0%nat by lia. Qed.

Lemma for_step {S : Type} body lo hi (s : S) : lo < hi ->
  for_ lo hi s body = bind (body lo s) (fun s1 => for_ (Datatypes.S lo) hi s1 body).
Proof.
  intros H. unfold for_. replace (hi - lo)%nat with (Datatypes.S (hi - Datatypes.S lo)) by lia.
  reflexivity.
Qed.

(** ** Array reads and writes *)

Lemma aget_ok_iff {U} n (v : arr U n) i : (exists x, aget v i = Ok x) <-> i < n.
Proof.
  split.
  - intros [x E]. destruct (Nat.lt_ge_cases i n) as [ |H]; [assumption| ].
    rewrite aget_panic in E by assumption. discriminate.
  - apply aget_ok.
Qed.

Lemma aset_ok {U} n (v : arr U n) i x : i < n -> exists w, aset v i x = Ok w.
Proof.
  revert i. induction n as [ |n IH]; intros i Hi; [lia| ].
  destruct i as [ |i]; cbn; [eauto| ].
  destruct (IH (snd v) i ltac:(lia)) as [w ->]. cbn. eauto.
Qed.

Lemma aset_panic {U} n (v : arr U n) i x : n <= i -> aset v i x = Panic.
Proof.
  revert i. induction n as [ |n IH]; intros i Hi; [reflexivity| ].
  destruct i as [ |i]; cbn; [lia| ]. rewrite IH by lia. reflexivity.
Qed.

Lemma aset_same {U} n (v w : arr U n) i x : aset v i x = Ok w -> aget w i = Ok x.
Proof.
  revert i. induction n as [ |n IH]; intros i E; [discriminate| ].
  destruct i as [ |i]; cbn in *.
  - inversion E; subst. reflexivity.
  - apply bind_ok in E as (u & E1 & E2). inversion E2; subst. cbn. eauto.
Qed.

Lemma aset_other {U} n (v w : arr U n) i j x : aset v i x = Ok w -> j <> i -> aget w j = aget v j.
Proof.
  revert i j. induction n as [ |n IH]; intros i j E Hj; [discriminate| ].
  destruct i as [ |i]; cbn in *.
  - inversion E; subst. destruct j as [ |j]; [lia| ]. reflexivity.
  - apply bind_ok in E as (u & E1 & E2). inversion E2; subst.
    destruct j as [ |j]; cbn; [reflexivity| ]. eapply IH; eauto.
Qed.

Lemma aget_amake {U} n (x : U) i : i < n -> aget (amake n x) i = Ok x.
Proof.
  revert i. induction n as [ |n IH]; intros i Hi; [lia| ].
  destruct i as [ |i]; cbn; [reflexivity| ]. apply IH. lia.
Qed.

Lemma aget_amap {U W} (f : U -> W) n (v : arr U n) i x :
  aget v i = Ok x -> aget (amap f v) i = Ok (f x).
Proof.
  revert i. induction n as [ |n IH]; intros i E; [discriminate| ].
  destruct i as [ |i]; cbn in *; [congruence| ]. auto.
Qed.

Lemma mget_ok_iff {U} n (m : mat U n) i j : (exists x, mget m i j = Ok x) <-> i < n /\ j < n.
Proof.
  unfold mget. split.
  - intros [x E]. apply bind_ok in E as (row & E1 & E2).
    split; [apply (aget_ok_iff n m)|apply (aget_ok_iff n row)]; eauto.
  - intros [Hi Hj]. destruct (aget_ok n m i Hi) as [row ->]. cbn. now apply aget_ok.
Qed.

Lemma mget_panic {U} n (m : mat U n) i j : n <= i \/ n <= j -> mget m i j = Panic.
Proof.
  intros H. destruct (mget m i j) as [x| ] eqn:E; [ |reflexivity].
  assert (i < n /\ j < n) by (apply (mget_ok_iff n m); eauto). lia.
Qed.

Lemma mset_ok {U} n (m : mat U n) i j x : i < n -> j < n -> exists m', mset m i j x = Ok m'.
Proof.
  intros Hi Hj. unfold mset. destruct (aget_ok n m i Hi) as [row ->]. cbn.
  destruct (aset_ok n row j x Hj) as [row' ->]. cbn. now apply aset_ok.
Qed.

Lemma mset_panic {U} n (m : mat U n) i j x : n <= i \/ n <= j -> mset m i j x = Panic.
Proof.
  intros H. unfold mset. destruct (aget m i) as [row| ] eqn:E; cbn; [ |reflexivity].
  assert (i < n) by (apply (aget_ok_iff n m); eauto).
  rewrite aset_panic by lia. reflexivity.
Qed.

Lemma mset_ok_iff {U} n (m : mat U n) i j x :
  (exists m', mset m i j x = Ok m') <-> i < n /\ j < n.
Proof.
  split.
  - intros [m' E]. destruct (Nat.lt_ge_cases i n), (Nat.lt_ge_cases j n); auto;
      rewrite mset_panic in E by auto; discriminate.
  - intros [? ?]. now apply mset_ok.
Qed.

Lemma mset_same {U} n (m m' : mat U n) i j x : mset m i j x = Ok m' -> mget m' i j = Ok x.
Proof.
  unfold mset, mget. intros E. apply bind_ok in E as (row & E1 & E).
  apply bind_ok in E as (row' & E2 & E3).
  rewrite (aset_same _ _ _ _ _ E3). cbn. eapply aset_same; eauto.
Qed.

Lemma mset_other {U} n (m m' : mat U n) i j a b x :
  mset m i j x = Ok m' -> (a, b) <> (i, j) -> mget m' a b = mget m a b.
Proof.
  unfold mset, mget. intros E H. apply bind_ok in E as (row & E1 & E).
  apply bind_ok in E as (row' & E2 & E3).
  destruct (Nat.eq_dec a i) as [->|Ha].
  - rewrite (aset_same _ _ _ _ _ E3), E1. cbn.
    eapply aset_other; [exact E2|congruence].
  - rewrite (aset_other _ _ _ _ a _ E3 Ha). reflexivity.
Qed.

Lemma mget_amake {U} n (x : U) i j : i < n -> j < n -> mget (amake n (amake n x)) i j = Ok x.
Proof. intros. unfold mget. rewrite aget_amake by assumption. cbn. now apply aget_amake. Qed.

(** The same as functions of the indices. *)
Section Fun.
Context {T : Type} {nT : Num T}.

Lemma mset_fun n (m : mat T n) i j x : i < n -> j < n ->
  exists m', mset m i j x = Ok m' /\
    forall a b, a < n -> b < n ->
      mfun m' a b = if Nat.eqb a i && Nat.eqb b j then x else mfun m a b.
Proof.
  intros Hi Hj. destruct (mset_ok n m i j x Hi Hj) as [m' E]. exists m'. split; [exact E| ].
  intros a b Ha Hb. pose proof (mfun_mget n m' a b Ha Hb) as G.
  destruct (Nat.eqb_spec a i) as [->|Hai]; cbn [andb].
  - destruct (Nat.eqb_spec b j) as [->|Hbj].
    + rewrite (mset_same n m m' i j x E) in G. congruence.
    + rewrite (mset_other n m m' i j i b x E) in G by congruence.
      rewrite mfun_mget in G by assumption. congruence.
  - rewrite (mset_other n m m' i j a b x E) in G by congruence.
    rewrite mfun_mget in G by assumption. congruence.
Qed.

Lemma aset_fun n (v : arr T n) i x : i < n ->
  exists w, aset v i x = Ok w /\
    forall a, a < n -> vfun w a = if Nat.eqb a i then x else vfun v a.
Proof.
  intros Hi. destruct (aset_ok n v i x Hi) as [w E]. exists w. split; [exact E| ].
  intros a Ha. pose proof (vfun_aget n w a Ha) as G.
  destruct (Nat.eqb_spec a i) as [->|Hai].
  - rewrite (aset_same n v w i x E) in G. congruence.
  - rewrite (aset_other n v w i a x E Hai) in G.
    rewrite vfun_aget in G by assumption. congruence.
Qed.

Lemma mfun_amake n x i j : i < n -> j < n -> mfun (amake n (amake n x)) i j = x.
Proof.
  intros Hi Hj. pose proof (mfun_mget n (amake n (amake n x)) i j Hi Hj) as G.
  rewrite mget_amake in G by assumption. congruence.
Qed.

Lemma vfun_amake n x i : i < n -> vfun (amake n x) i = x.
Proof.
  intros Hi. pose proof (vfun_aget n (amake n x) i Hi) as G.
  rewrite aget_amake in G by assumption. congruence.
Qed.

(** A double loop that writes [g i j] in cell [(i, j)]. *)
Lemma fill_matrix n (body : nat -> nat -> mat T n -> outcome (mat T n)) (g : nat -> nat -> T) m0 :
  (forall i j m, i < n -> j < n ->
     exists m', body i j m = Ok m' /\ mset m i j (g i j) = Ok m') ->
  exists m', for_ 0 n m0 (fun i m => for_ 0 n m (fun j m => body i j m)) = Ok m'
    /\ forall a b, a < n -> b < n -> mfun m' a b = g a b.
Proof.
  intros Hb.
  destruct (for_inv (fun i (m : mat T n) =>
      forall a b, a < i -> a < n -> b < n -> mfun m a b = g a b)
    (fun i m => for_ 0 n m (fun j m => body i j m)) 0 n m0) as (m' & E & H).
  - lia.
  - intros; lia.
  - intros i m Hi Hm.
    destruct (for_inv (fun j (m : mat T n) =>
       forall a b, a < n -> b < n -> a < i \/ (a = i /\ b < j) -> mfun m a b = g a b)
      (fun j m => body i j m) 0 n m) as (m1 & E1 & H1).
    + lia.
    + intros a b Ha Hb' [ | ]; [apply Hm; lia|lia].
    + intros j m2 Hj Hm2. destruct (Hb i j m2 ltac:(lia) ltac:(lia)) as (m3 & E3 & S3).
      exists m3. split; [exact E3| ]. intros a b Ha Hb' Hc.
      destruct (mset_fun n m2 i j (g i j) ltac:(lia) ltac:(lia)) as (m4 & E4 & F4).
      rewrite S3 in E4. inversion E4; subst m4. rewrite F4 by assumption.
      destruct (Nat.eqb_spec a i) as [->| ], (Nat.eqb_spec b j) as [->| ]; cbn [andb];
        try reflexivity; apply Hm2; auto; lia.
    + exists m1. split; [exact E1| ]. intros a b Ha Ha' Hb'. apply H1; auto. lia.
  - exists m'. split; [exact E| ]. intros a b Ha Hb'. apply H; auto.
Qed.

End Fun.
