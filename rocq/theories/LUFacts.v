(** * LUFacts: the LU factorization over the reals, for every size

    [L], [U] and the permutation are read off the packed result as the
    documentation of [lu()] describes them. *)

From Coq Require Import List Arith Lia Bool Reals Lra Ring.
From Verif Require Import Base Scalar Slices MatLoops RingDet Spec LoopFacts InstR.
Import ListNotations.
Local Open Scope R_scope.

Section LU.
Context {K : RConsts} (OK : RConstsOk K).

(** Unit lower triangle and upper triangle of a packed matrix. *)
Definition Lpart (m : nat -> nat -> R) (i j : nat) : R :=
  if Nat.ltb j i then m i j else if Nat.eqb j i then 1 else 0.
Definition Upart (m : nat -> nat -> R) (i j : nat) : R :=
  if Nat.leb i j then m i j else 0.

(** The rows of [A] exchanged by the transpositions (0, p 0), ..., (k-1, p (k-1)),
    in this order. *)
Fixpoint exchange (k : nat) (p : nat -> nat) (A : nat -> nat -> R) : nat -> nat -> R :=
  match k with
  | O => A
  | S k' => swap_row k' (p k') (exchange k' p A)
  end.

Lemma exchange_ext k p p' A : (forall i, (i < k)%nat -> p i = p' i) ->
  exchange k p A = exchange k p' A.
Proof.
  induction k as [ |k IH]; intros H; cbn; [reflexivity| ].
  rewrite IH by (intros; apply H; lia). rewrite (H k) by lia. reflexivity.
Qed.

(** ** The scaling loop *)

Lemma lu_row_big n (lu : mat R n) i b0 : (i < n)%nat -> 0 <= b0 ->
  exists b, for_ 0 n b0 (fun j big =>
        x <- mget lu i j ;;
        Ok (if ltb big (abs x) then abs x else big)) = Ok b
    /\ b0 <= b /\ (forall j, (j < n)%nat -> Rabs (mfun lu i j) <= b)
    /\ (b = b0 \/ exists j, (j < n)%nat /\ b = Rabs (mfun lu i j)).
Proof.
  intros Hi Hb.
  destruct (for_inv (fun k b => b0 <= b
      /\ (forall j, (j < k)%nat -> Rabs (mfun lu i j) <= b)
      /\ (b = b0 \/ exists j, (j < n)%nat /\ b = Rabs (mfun lu i j)))
    (fun j big =>
        x <- mget lu i j ;;
        let temp := abs x in
        Ok (if ltb big temp then temp else big)) 0 n b0) as (b & E & H1 & H2 & H3).
  - lia.
  - split; [lra| ]. split; [intros; lia|left; reflexivity].
  - intros j b Hj (H1 & H2 & H3). rewrite mfun_mget by lia. cbn [bind].
    eexists. split; [reflexivity| ]. cbn [ltb R_POrd abs R_Signed].
    destruct (Rltb_spec b (Rabs (mfun lu i j))) as [Hlt|Hge].
    + split; [lra| ]. split; [ |right; exists j; split; [lia|reflexivity]].
      intros j' Hj'. destruct (Nat.eq_dec j' j) as [->| ]; [lra| ].
      specialize (H2 j' ltac:(lia)). lra.
    + split; [lra| ]. split; [ |exact H3].
      intros j' Hj'. destruct (Nat.eq_dec j' j) as [->| ]; [lra| ]. apply H2. lia.
  - exists b. repeat split; auto.
Qed.

Definition row0_zero {n} (A : mat R n) : Prop := forall j, (j < n)%nat -> mfun A 0 j = 0.

Lemma lu_scaling_ok n (A : mat R n) vv : (0 < n)%nat -> ~ row0_zero A ->
  exists vv', lu_scaling A vv = Ok vv' /\ forall i, (i < n)%nat -> 0 < vfun vv' i.
Proof.
  intros Hn Hz. unfold lu_scaling.
  set (body := fun i (st : arr R n * R) => let ' (vv, big) := st in
      big <- for_ 0 n big (fun j big =>
        x <- mget A i j ;;
        let temp := abs x in
        Ok (if ltb big temp then temp else big)) ;;
      if eqb big zero then Panic
      else
        vv <- aset vv i (recip big) ;;
        Ok (vv, big)).
  destruct (for_inv (fun k (st : arr R n * R) => 0 <= snd st /\ ((0 < k)%nat -> 0 < snd st) /\
       forall i, (i < k)%nat -> 0 < vfun (fst st) i) body 0 n (vv, zero)) as ((vv' & b') & E & H).
  - lia.
  - cbn. split; [lra| ]. split; intros; lia.
  - intros i (vv1, b1) Hi (Hb & Hp & Hv). cbn [fst snd] in *.
    destruct (lu_row_big n A i b1 ltac:(lia) Hb) as (b & E & H1 & H2 & H3).
    unfold body. cbv zeta. rewrite E. cbn [bind].
    assert (Hbp : 0 < b).
    { destruct i as [ |i].
      - destruct (Rle_lt_dec b 0) as [Hle| ]; [ |assumption]. exfalso. apply Hz.
        intros j Hj. specialize (H2 j Hj). pose proof (Rabs_pos (mfun A 0 j)).
        destruct (Req_dec (mfun A 0 j) 0) as [ |Hne]; [assumption| ].
        pose proof (Rabs_pos_lt _ Hne). lra.
      - specialize (Hp ltac:(lia)). lra. }
    cbn [eqb R_Num zero]. destruct (Reqb_spec b 0) as [?|_]; [lra| ].
    destruct (aset_fun n vv1 i (recip b) ltac:(lia)) as (vv2 & -> & F). cbn [bind].
    eexists. split; [reflexivity| ]. cbn [fst snd].
    split; [lra| ]. split; [intros; lra| ].
    intros a Ha. rewrite F by lia. destruct (Nat.eqb_spec a i) as [->| ].
    + unfold recip. cbn [div R_Num one]. unfold Rdiv. rewrite Rmult_1_l.
      now apply Rinv_0_lt_compat.
    + apply Hv. lia.
  - rewrite E. cbn [bind]. exists vv'. split; [reflexivity| ]. apply H.
Qed.

Lemma lu_scaling_panic n (A : mat R n) vv : (0 < n)%nat -> row0_zero A ->
  lu_scaling A vv = Panic.
Proof.
  intros Hn Hz. unfold lu_scaling. rewrite for_step by lia.
  destruct (lu_row_big n A 0 0 Hn ltac:(lra)) as (b & E & H1 & H2 & H3).
  change (@zero R R_Num) with 0. cbv zeta. rewrite E. cbn [bind].
  assert (b = 0).
  { destruct H3 as [ |(j & Hj & ->)]; [assumption| ]. rewrite Hz by assumption. apply Rabs_R0. }
  subst b. cbn [eqb R_Num]. destruct (Reqb_spec 0 0) as [_| ]; [reflexivity|lra].
Qed.

(** ** Pivot search *)

Lemma lu_pivot_spec n (m : mat R n) (vv : arr R n) k : (k < n)%nat ->
  (forall i, (i < n)%nat -> 0 < vfun vv i) ->
  exists p, lu_pivot m vv k = Ok p /\ (k <= p < n)%nat
    /\ (mfun m p k = 0 -> forall i, (k <= i < n)%nat -> mfun m i k = 0)
    (* the chosen row maximizes the scaled entry *)
    /\ (forall i, (k <= i < n)%nat ->
          vfun vv i * Rabs (mfun m i k) <= vfun vv p * Rabs (mfun m p k)).
Proof.
  intros Hk Hv. unfold lu_pivot.
  destruct (for_inv (fun j (st : R * nat) => 0 <= fst st /\ (k <= snd st < n)%nat
      /\ (forall i, (k <= i < j)%nat -> vfun vv i * Rabs (mfun m i k) <= fst st)
      /\ fst st <= vfun vv (snd st) * Rabs (mfun m (snd st) k))
    (fun i (st : R * nat) =>
      let ' (big, i_max) := st in
      v <- aget vv i ;; x <- mget m i k ;;
      let temp := mul v (abs x) in
      Ok (if ltb big temp then (temp, i) else (big, i_max))) k n (zero, k))
    as ((big & p) & E & H1 & H2 & H3 & H4).
  - lia.
  - cbn [fst snd]. split; [cbn; lra| ]. split; [lia| ]. split; [intros; lia| ].
    change (@zero R R_Num) with 0. apply Rmult_le_pos; [left; apply Hv; lia|apply Rabs_pos].
  - intros i (big, p) Hi (H1 & H2 & H3 & H4). cbn [fst snd] in *.
    rewrite vfun_aget by lia. cbn [bind]. rewrite mfun_mget by lia. cbn [bind].
    eexists. split; [reflexivity| ].
    cbn [ltb R_POrd mul R_Num abs R_Signed].
    destruct (Rltb_spec big (vfun vv i * Rabs (mfun m i k))); cbn [fst snd].
    + split; [lra| ]. split; [lia| ]. split; [ |lra].
      intros i' Hi'. destruct (Nat.eq_dec i' i) as [->| ]; [lra| ].
      specialize (H3 i' ltac:(lia)). lra.
    + split; [lra| ]. split; [lia| ]. split; [ |lra].
      intros i' Hi'. destruct (Nat.eq_dec i' i) as [->| ]; [lra| ]. apply H3. lia.
  - cbn [fst snd] in *. rewrite E. cbn [bind]. exists p. split; [reflexivity| ].
    split; [exact H2| ].
    assert (M : forall i, (k <= i < n)%nat ->
          vfun vv i * Rabs (mfun m i k) <= vfun vv p * Rabs (mfun m p k)).
    { intros i Hi. specialize (H3 i Hi). lra. }
    split; [ |exact M].
    intros Hz i Hi. specialize (M i Hi). rewrite Hz, Rabs_R0, Rmult_0_r in M.
    destruct (Req_dec (mfun m i k) 0) as [ |Hne]; [assumption| ].
    pose proof (Rabs_pos_lt _ Hne). specialize (Hv i ltac:(lia)).
    pose proof (Rmult_lt_0_compat _ _ Hv H). lra.
Qed.

(** ** Row exchange *)

Lemma lu_swap_spec n (m : mat R n) k p : (k < n)%nat -> (p < n)%nat ->
  exists m', lu_swap m k p = Ok m' /\ forall a b, (a < n)%nat -> (b < n)%nat ->
    mfun m' a b = swap_row k p (mfun m) a b.
Proof.
  intros Hk Hp. unfold lu_swap.
  destruct (for_inv (fun j (m1 : mat R n) => forall a b, (a < n)%nat -> (b < n)%nat ->
      mfun m1 a b = if Nat.ltb b j then swap_row k p (mfun m) a b else mfun m a b)
    (fun j lu =>
      temp <- mget lu p j ;;
      x <- mget lu k j ;;
      lu <- mset lu p j x ;;
      mset lu k j temp) 0 n m) as (m' & E & H).
  - lia.
  - intros. reflexivity.
  - intros j m1 Hj H1. rewrite !mfun_mget by lia. cbn [bind].
    destruct (mset_fun n m1 p j (mfun m1 k j) Hp ltac:(lia)) as (m2 & -> & F2). cbn [bind].
    destruct (mset_fun n m2 k j (mfun m1 p j) Hk ltac:(lia)) as (m3 & -> & F3).
    exists m3. split; [reflexivity| ]. intros a b Ha Hb.
    rewrite F3, F2 by assumption.
    pose proof (H1 p j ltac:(lia) ltac:(lia)) as Ep.
    pose proof (H1 k j ltac:(lia) ltac:(lia)) as Ek.
    rewrite Nat.ltb_irrefl in Ep, Ek. rewrite Ep, Ek. rewrite H1 by assumption.
    unfold swap_row.
    destruct (Nat.eqb_spec b j) as [->|Hbj].
    + rewrite Nat.ltb_irrefl, !andb_true_r.
      destruct (Nat.ltb_spec j (S j)); [ |lia].
      destruct (Nat.eqb_spec a k) as [->| ]; [reflexivity| ].
      destruct (Nat.eqb_spec a p) as [->| ]; reflexivity.
    + rewrite !andb_false_r.
      destruct (Nat.ltb_spec b j), (Nat.ltb_spec b (S j)); try lia; reflexivity.
  - exists m'. split; [exact E| ]. intros a b Ha Hb. rewrite H by assumption.
    destruct (Nat.ltb_spec b n); [reflexivity|lia].
Qed.

(** ** Elimination *)

Definition elim_row (m : nat -> nat -> R) (k i j : nat) : R :=
  if Nat.ltb k i then
    if Nat.eqb j k then m i k / m k k
    else if Nat.ltb k j then m i j - m i k / m k k * m k j
    else m i j
  else m i j.

Lemma lu_eliminate_spec n (m : mat R n) k : (k < n)%nat ->
  exists m', lu_eliminate m k = Ok m' /\ forall a b, (a < n)%nat -> (b < n)%nat ->
    mfun m' a b = elim_row (mfun m) k a b.
Proof.
  intros Hk. unfold lu_eliminate.
  set (inner := fun (i : nat) (lu : mat R n) => for_ (k + 1) n lu (fun j lu =>
      x <- mget lu i j ;; f <- mget lu i k ;; y <- mget lu k j ;;
      mset lu i j (sub x (mul f y)))).
  assert (Hin : forall i (m1 : mat R n), (k < i < n)%nat ->
    exists m2, inner i m1 = Ok m2 /\ forall a b, (a < n)%nat -> (b < n)%nat ->
      mfun m2 a b = if Nat.eqb a i && Nat.ltb k b
                    then mfun m1 i b - mfun m1 i k * mfun m1 k b else mfun m1 a b).
  { intros i m1 Hi. unfold inner.
    destruct (for_inv (fun j (m2 : mat R n) => forall a b, (a < n)%nat -> (b < n)%nat ->
        mfun m2 a b = if Nat.eqb a i && Nat.ltb k b && Nat.ltb b j
                      then mfun m1 i b - mfun m1 i k * mfun m1 k b else mfun m1 a b)
      (fun j lu =>
        x <- mget lu i j ;; f <- mget lu i k ;; y <- mget lu k j ;;
        mset lu i j (sub x (mul f y))) (k + 1) n m1) as (m2 & E & H).
    - lia.
    - intros a b Ha Hb. destruct (Nat.ltb_spec k b), (Nat.ltb_spec b (k + 1)); try lia;
        rewrite ?andb_false_r; reflexivity.
    - intros j m2 Hj H2. rewrite !mfun_mget by lia. cbn [bind].
      destruct (mset_fun n m2 i j (sub (mfun m2 i j) (mul (mfun m2 i k) (mfun m2 k j)))
        ltac:(lia) ltac:(lia)) as (m3 & -> & F3).
      exists m3. split; [reflexivity| ]. intros a b Ha Hb. rewrite F3 by assumption.
      rewrite !H2 by lia.
      rewrite Nat.eqb_refl. rewrite Nat.ltb_irrefl.
      destruct (Nat.eqb_spec k i); [lia| ]. cbn [andb]. rewrite !andb_false_r.
      rewrite (Nat.ltb_irrefl k). cbn [andb sub mul R_Num].
      destruct (Nat.eqb_spec a i) as [->| ]; cbn [andb]; [ |reflexivity].
      destruct (Nat.eqb_spec b j) as [->| ].
      + destruct (Nat.ltb_spec k j); [ |lia]. destruct (Nat.ltb_spec j (S j)); [ |lia].
        reflexivity.
      + destruct (Nat.ltb_spec b j), (Nat.ltb_spec b (S j)); try lia; reflexivity.
    - exists m2. split; [exact E| ]. intros a b Ha Hb. rewrite H by assumption.
      destruct (Nat.ltb_spec b n); [ |lia]. rewrite andb_true_r. reflexivity. }
  destruct (for_inv (fun i (m1 : mat R n) => forall a b, (a < n)%nat -> (b < n)%nat ->
      mfun m1 a b = if Nat.ltb a i then elim_row (mfun m) k a b else mfun m a b)
    (fun i lu => a <- mget lu i k ;; p <- mget lu k k ;;
      lu <- mset lu i k (div a p) ;; inner i lu) (k + 1) n m) as (m' & E & H).
  - lia.
  - intros a b Ha Hb. unfold elim_row.
    destruct (Nat.ltb_spec a (k + 1)), (Nat.ltb_spec k a); try lia; reflexivity.
  - intros i m1 Hi H1. rewrite !mfun_mget by lia. cbn [bind].
    destruct (mset_fun n m1 i k (div (mfun m1 i k) (mfun m1 k k)) ltac:(lia) Hk)
      as (m2 & -> & F2). cbn [bind].
    destruct (Hin i m2 ltac:(lia)) as (m3 & -> & F3).
    exists m3. split; [reflexivity| ]. intros a b Ha Hb. rewrite F3 by assumption.
    rewrite !F2 by lia.
    assert (Ekk : forall c, (c < n)%nat -> mfun m1 k c = mfun m k c).
    { intros c Hc. rewrite H1 by lia. unfold elim_row.
      destruct (Nat.ltb_spec k k); [lia| ]. destruct (Nat.ltb k i); reflexivity. }
    assert (Eii : forall c, (c < n)%nat -> mfun m1 i c = mfun m i c).
    { intros c Hc. rewrite H1 by lia. rewrite Nat.ltb_irrefl. reflexivity. }
    rewrite Nat.eqb_refl. destruct (Nat.eqb_spec k i); [lia| ]. cbn [andb].
    rewrite !Nat.eqb_refl. cbn [div R_Num].
    rewrite !Ekk, Eii by lia. 
    destruct (Nat.eqb_spec a i) as [->|Hai]; cbn [andb].
    + destruct (Nat.ltb_spec i (S i)); [ |lia]. unfold elim_row.
      destruct (Nat.ltb_spec k i); [ |lia].
      destruct (Nat.eqb_spec b k) as [->| ].
      * rewrite Nat.ltb_irrefl. reflexivity.
      * rewrite !Eii by lia. destruct (Nat.ltb_spec k b); reflexivity.
    + rewrite H1 by assumption.
      destruct (Nat.ltb_spec a i), (Nat.ltb_spec a (S i)); try lia; reflexivity.
  - exists m'. split; [exact E| ]. intros a b Ha Hb. rewrite H by assumption.
    destruct (Nat.ltb_spec a n); [reflexivity|lia].
Qed.

(** ** The invariant *)

Definition rem (k : nat) (m : nat -> nat -> R) (i j : nat) : R :=
  if Nat.leb k i && Nat.leb k j then m i j else 0.

Definition diag (e : nat -> R) (i j : nat) : R := if Nat.eqb i j then e i else 0.

(** The exchange recorded for column [i]. *)
Definition pos {n} (v : arr nat n) (i : nat) : nat :=
  match aget v i with Ok x => x | Panic => 0 end.

Lemma pos_aset n (v : arr nat n) i x : (i < n)%nat ->
  exists w, aset v i x = Ok w /\ forall a, pos w a = if Nat.eqb a i then x else pos v a.
Proof.
  intros Hi. destruct (aset_ok n v i x Hi) as (w & E). exists w. split; [exact E| ].
  intros a. unfold pos. destruct (Nat.eqb_spec a i) as [->|Ha].
  - now rewrite (aset_same n v w i x E).
  - now rewrite (aset_other n v w i a x E Ha).
Qed.

Definition sign_of (k : nat) (p : nat -> nat) : R :=
  prodn k (fun l => if Nat.eqb (p l) l then 1 else -1).

(** [B + diag e = L U] up to column [k]. *)
Definition partial_lu (n k : nat) (B m : nat -> nat -> R) (e : nat -> R) : Prop :=
  forall i j, (i < n)%nat -> (j < n)%nat ->
    B i j + diag e i j = sumn k (fun l => Lpart m i l * Upart m l j) + rem k m i j.

Lemma sumnR_ext n f g : (forall i, (i < n)%nat -> f i = g i) -> sumn n f = sumn n g.
Proof. apply sumn_ext. Qed.

Lemma sumnR_S n f : sumn (S n) f = sumn n f + f n.
Proof. reflexivity. Qed.

Lemma sumnR_0 n f : (forall i, (i < n)%nat -> f i = 0) -> sumn n f = 0.
Proof. apply (sumn_zero R_ring). Qed.

Lemma partial_lu_start n A : partial_lu n 0 A A (fun _ => 0).
Proof.
  intros i j Hi Hj. unfold diag, rem. cbn. destruct (Nat.eqb i j); lra.
Qed.

(** exchanging two rows not yet eliminated *)
Lemma partial_lu_swap n k p B m m' e : (k <= p < n)%nat ->
  (forall i, (k <= i)%nat -> e i = 0) ->
  (forall a b, (a < n)%nat -> (b < n)%nat -> m' a b = swap_row k p m a b) ->
  partial_lu n k B m e -> partial_lu n k (swap_row k p B) m' e.
Proof.
  intros Hp He Hm H i j Hi Hj.
  assert (R1 : forall i, (i < k)%nat -> forall b, (b < n)%nat -> m' i b = m i b).
  { intros a Ha b Hb. rewrite Hm by lia. unfold swap_row.
    destruct (Nat.eqb_spec a k); [lia| ]. destruct (Nat.eqb_spec a p); [lia|reflexivity]. }
  (* row r of m' is row s of m, for r, s >= k *)
  assert (G : forall s, (k <= i)%nat -> (k <= s < n)%nat ->
    (forall b, (b < n)%nat -> m' i b = m s b) ->
    B s j = sumn k (fun l => Lpart m' i l * Upart m' l j) + rem k m' i j).
  { intros s Hki Hs Hr. specialize (H s j ltac:(lia) Hj).
    assert (D : diag e s j = 0).
    { unfold diag. destruct (Nat.eqb_spec s j); [apply He; lia|reflexivity]. }
    rewrite D, Rplus_0_r in H. rewrite H. f_equal.
    - apply sumnR_ext. intros l Hl. f_equal.
      + unfold Lpart. destruct (Nat.ltb_spec l s), (Nat.ltb_spec l i); try lia.
        symmetry. apply Hr. lia.
      + unfold Upart. destruct (Nat.leb_spec l j); [ |reflexivity]. symmetry. apply R1; lia.
    - unfold rem. destruct (Nat.leb_spec k s), (Nat.leb_spec k i); try lia.
      cbn [andb]. destruct (Nat.leb k j); [ |reflexivity]. symmetry. now apply Hr. }
  destruct (Nat.lt_ge_cases i k) as [Hik|Hik].
  - assert (E : swap_row k p B i j = B i j).
    { unfold swap_row. destruct (Nat.eqb_spec i k); [lia| ].
      destruct (Nat.eqb_spec i p); [lia|reflexivity]. }
    rewrite E, H by assumption. f_equal.
    + apply sumnR_ext. intros l Hl. f_equal.
      * unfold Lpart. destruct (Nat.ltb_spec l i); [symmetry; apply R1; lia|reflexivity].
      * unfold Upart. destruct (Nat.leb_spec l j); [ |reflexivity]. symmetry. apply R1; lia.
    + unfold rem. destruct (Nat.leb_spec k i); [lia|reflexivity].
  - assert (D : diag e i j = 0).
    { unfold diag. destruct (Nat.eqb_spec i j); [apply He; lia|reflexivity]. }
    rewrite D, Rplus_0_r. unfold swap_row at 1.
    destruct (Nat.eqb_spec i k) as [->|H1].
    + apply G; [lia|lia| ]. intros b Hb. rewrite Hm by lia. unfold swap_row.
      now rewrite Nat.eqb_refl.
    + destruct (Nat.eqb_spec i p) as [->|H2].
      * apply G; [lia|lia| ]. intros b Hb. rewrite Hm by lia. unfold swap_row.
        destruct (Nat.eqb_spec p k); [lia| ]. now rewrite Nat.eqb_refl.
      * apply G; [lia|lia| ]. intros b Hb. rewrite Hm by lia. unfold swap_row.
        destruct (Nat.eqb_spec i k); [lia| ]. destruct (Nat.eqb_spec i p); [lia| ]. reflexivity.
Qed.

(** perturbing the pivot *)
Lemma partial_lu_pivot n k B m m' e x : (k < n)%nat -> e k = 0 ->
  (forall a b, (a < n)%nat -> (b < n)%nat ->
     m' a b = if Nat.eqb a k && Nat.eqb b k then m k k + x else m a b) ->
  partial_lu n k B m e ->
  partial_lu n k B m' (fun i => if Nat.eqb i k then x else e i).
Proof.
  intros Hk He Hm H i j Hi Hj. specialize (H i j Hi Hj).
  assert (S : sumn k (fun l => Lpart m' i l * Upart m' l j)
            = sumn k (fun l => Lpart m i l * Upart m l j)).
  { apply sumnR_ext. intros l Hl. f_equal.
    - unfold Lpart. rewrite Hm by lia. destruct (Nat.eqb_spec l k); [lia| ].
      rewrite andb_false_r. reflexivity.
    - unfold Upart. rewrite Hm by lia. destruct (Nat.eqb_spec l k); [lia| ]. reflexivity. }
  rewrite S. unfold rem, diag in *. rewrite Hm by assumption.
  destruct (Nat.eqb_spec i k) as [->| ]; cbn [andb].
  - destruct (Nat.eqb_spec k j) as [<-| ].
    + rewrite Nat.eqb_refl, !Nat.leb_refl in *. cbn [andb] in *. rewrite He in H. lra.
    + destruct (Nat.eqb_spec j k); [lia| ]. exact H.
  - exact H.
Qed.

(** eliminating below the pivot *)
Lemma partial_lu_elim n k B m m' e : (k < n)%nat -> m k k <> 0 ->
  (forall a b, (a < n)%nat -> (b < n)%nat -> m' a b = elim_row m k a b) ->
  partial_lu n k B m e -> partial_lu n (S k) B m' e.
Proof.
  intros Hk Hp Hm H i j Hi Hj. rewrite (H i j Hi Hj). rewrite sumnR_S.
  assert (S : sumn k (fun l => Lpart m' i l * Upart m' l j)
            = sumn k (fun l => Lpart m i l * Upart m l j)).
  { apply sumnR_ext. intros l Hl. f_equal.
    - unfold Lpart. destruct (Nat.ltb_spec l i); [ |reflexivity]. rewrite Hm by lia.
      unfold elim_row. destruct (Nat.ltb_spec k i); [ |reflexivity].
      destruct (Nat.eqb_spec l k); [lia| ]. destruct (Nat.ltb_spec k l); [lia|reflexivity].
    - unfold Upart. destruct (Nat.leb_spec l j); [ |reflexivity]. rewrite Hm by lia.
      unfold elim_row. destruct (Nat.ltb_spec k l); [lia|reflexivity]. }
  rewrite S. rewrite Rplus_assoc. f_equal.
  unfold rem, Lpart, Upart, elim_row in *.
  rewrite !Hm by lia. unfold elim_row.
  rewrite Nat.ltb_irrefl, Nat.eqb_refl.
  destruct (Nat.leb_spec k i) as [Hki|Hki], (Nat.leb_spec k j) as [Hkj|Hkj];
    destruct (Nat.leb_spec (Datatypes.S k) i), (Nat.leb_spec (Datatypes.S k) j);
    destruct (Nat.ltb_spec k i), (Nat.ltb_spec k j); try lia; cbn [andb];
    destruct (Nat.eqb_spec k i), (Nat.eqb_spec j k); try lia; subst; try ring.
  all: field; assumption.
Qed.

(** ** Singular matrices *)

Lemma ldet_col0 n (V : nat -> nat -> R) : (forall i, (0 < i < S n)%nat -> V i 0%nat = 0) ->
  ldet (S n) V = V 0%nat 0%nat * ldet n (fun i j => V (S i) (S j)).
Proof.
  intros H. rewrite <- (ldet_trans R_ring). cbn [ldet].
  rewrite (sumn_single R_ring (S n) 0); [ |lia| ].
  - cbn [sgn]. change (@one R R_Num) with 1. cbn [mul R_Num].
    rewrite Rmult_1_l. unfold mtrans at 1. f_equal.
    rewrite <- (ldet_trans R_ring). apply ldet_ext. intros i j Hi Hj.
    unfold mtrans, minor. rewrite !skip_0. reflexivity.
  - intros i Hi Hne. unfold mtrans at 1. rewrite H by lia. cbn. ring.
Qed.

Lemma ldet_block k : forall n (V : nat -> nat -> R), (0 < n)%nat ->
  (forall i j, (j < k)%nat -> (j < i < k + n)%nat -> V i j = 0) ->
  (forall i, (k <= i < k + n)%nat -> V i k = 0) -> ldet (k + n) V = 0.
Proof.
  induction k as [ |k IH]; intros n V Hn H1 H2.
  - destruct n as [ |n]; [lia| ]. cbn [Nat.add]. rewrite ldet_col0.
    + rewrite H2 by lia. ring.
    + intros i Hi. apply H2. lia.
  - cbn [Nat.add]. rewrite ldet_col0.
    + rewrite IH; [ring|assumption| | ].
      * intros i j Hj Hi. apply H1; lia.
      * intros i Hi. apply H2. lia.
    + intros i Hi. apply H1; lia.
Qed.

Lemma partial_lu_singular n k B m : (k < n)%nat ->
  partial_lu n k B m (fun _ => 0) ->
  (forall i, (k <= i < n)%nat -> m i k = 0) -> ldet n B = 0.
Proof.
  intros Hk H Hz.
  pose (L := fun i j => if Nat.ltb j k then Lpart m i j else @delta R R_Num i j).
  pose (V := fun i j => if Nat.ltb i k then Upart m i j else rem k m i j).
  assert (E : forall i j, (i < n)%nat -> (j < n)%nat -> B i j = mmul n L V i j).
  { intros i j Hi Hj. specialize (H i j Hi Hj).
    assert (D : diag (fun _ => 0) i j = 0) by (unfold diag; destruct (Nat.eqb i j); reflexivity).
    rewrite D, Rplus_0_r in H. rewrite H. unfold mmul.
    replace n with (k + (n - k))%nat at 1 by lia.
    rewrite (sumn_split R_ring). cbn [add mul R_Num]. f_equal.
    - apply sumnR_ext. intros l Hl. unfold L, V. destruct (Nat.ltb_spec l k); [reflexivity|lia].
    - destruct (Nat.lt_ge_cases i k) as [Hik|Hik].
      + transitivity 0.
        { unfold rem. destruct (Nat.leb_spec k i); [lia|reflexivity]. }
        symmetry. apply sumnR_0. intros l Hl. unfold L.
        destruct (Nat.ltb_spec (k + l) k); [lia| ]. unfold delta.
        destruct (Nat.eqb_spec i (k + l)); [lia| ]. cbn [zero R_Num]. ring.
      + symmetry. transitivity (L i (k + (i - k))%nat * V (k + (i - k))%nat j).
        { apply (sumn_single R_ring (n - k) (i - k) (fun l => L i (k + l)%nat * V (k + l)%nat j)).
          - lia.
          - intros l Hl Hne. unfold L. destruct (Nat.ltb_spec (k + l) k); [lia| ]. unfold delta.
            destruct (Nat.eqb_spec i (k + l)); [lia| ]. cbn [zero R_Num]. ring. }
        replace (k + (i - k))%nat with i by lia. unfold L, V.
        destruct (Nat.ltb_spec i k); [lia| ]. unfold delta. rewrite Nat.eqb_refl.
        cbn [one R_Num]. ring. }
  rewrite (ldet_ext n B (mmul n L V)) by exact E.
  rewrite (ldet_mul R_ring).
  replace (ldet n V) with 0; [cbn; ring| ].
  symmetry. replace n with (k + (n - k))%nat by lia. apply ldet_block.
  - lia.
  - intros i j Hj Hi. unfold V. destruct (Nat.ltb_spec i k).
    + unfold Upart. destruct (Nat.leb_spec i j); [lia|reflexivity].
    + unfold rem. destruct (Nat.leb_spec k j); [lia| ]. rewrite andb_false_r. reflexivity.
  - intros i Hi. unfold V. destruct (Nat.ltb_spec i k); [lia| ].
    unfold rem. rewrite Nat.leb_refl. destruct (Nat.leb_spec k i); [ |lia]. cbn [andb].
    apply Hz. lia.
Qed.

Lemma swap_row_refl r (M : nat -> nat -> R) i j : swap_row r r M i j = M i j.
Proof.
  unfold swap_row. destruct (Nat.eqb_spec i r) as [->| ]; reflexivity.
Qed.

Lemma ldet_exchange n k p A : (k <= n)%nat -> (forall l, (l < k)%nat -> (l <= p l < n)%nat) ->
  ldet n (exchange k p A) = sign_of k p * ldet n A.
Proof.
  induction k as [ |k IH]; intros Hk Hp.
  - cbn. unfold sign_of. cbn. ring.
  - cbn [exchange]. unfold sign_of in *. cbn [prodn].
    pose proof (Hp k ltac:(lia)). destruct (Nat.eqb_spec (p k) k) as [E|E].
    + rewrite (ldet_ext n _ (exchange k p A)).
      * rewrite IH; [cbn; ring|lia|intros; apply Hp; lia].
      * intros i j _ _. rewrite E. apply swap_row_refl.
    + rewrite (ldet_swap_rows R_ring) by lia.
      rewrite IH; [cbn; ring|lia|intros; apply Hp; lia].
Qed.

Lemma sign_of_nonzero k p : sign_of k p <> 0.
Proof.
  unfold sign_of. induction k as [ |k IH]; cbn [prodn]; [cbn; lra| ].
  cbn [mul R_Num]. apply Rmult_integral_contrapositive. split; [exact IH| ].
  destruct (Nat.eqb (p k) k); lra.
Qed.

(** ** The factorization loop *)

Record lu_inv (n k : nat) (A m : nat -> nat -> R) (d : R) (p : nat -> nat) (e : nat -> R) : Prop := {
  inv_lu : partial_lu n k (exchange k p A) m e;
  inv_pos : forall l, (l < k)%nat -> (l <= p l < n)%nat;
  inv_sign : d = sign_of k p;
  inv_diag : forall l, (l < k)%nat -> m l l <> 0;
  inv_pert : forall l, e l = 0 \/ ((l < k)%nat /\ e l = r_1em40);
  inv_regular : ldet n A <> 0 -> forall l, e l = 0
}.

Lemma lu_step_inv n (A : nat -> nat -> R) k (m : mat R n) vv d ix e : (k < n)%nat ->
  (forall i, (i < n)%nat -> 0 < vfun vv i) ->
  lu_inv n k A (mfun m) d (pos ix) e ->
  exists m' vv' d' ix' e', lu_step k (m, vv, d, ix) = Ok (m', vv', d', ix')
    /\ (forall i, (i < n)%nat -> 0 < vfun vv' i)
    /\ lu_inv n (S k) A (mfun m') d' (pos ix') e'.
Proof.
  intros Hk Hv I. unfold lu_step.
  destruct (lu_pivot_spec n m vv k Hk Hv) as (p & -> & Hp & Hpz & _). cbn [bind].
  (* the exchange, whether or not it happens *)
  assert (SW : exists m1 vv1, (if negb (Nat.eqb k p)
       then lu <- lu_swap m k p ;; v <- aget vv k ;; vv <- aset vv p v ;; Ok (lu, vv, neg d)
       else Ok (m, vv, d))
      = Ok (m1, vv1, d * (if Nat.eqb p k then 1 else -1))
      /\ (forall a b, (a < n)%nat -> (b < n)%nat -> mfun m1 a b = swap_row k p (mfun m) a b)
      /\ (forall i, (i < n)%nat -> 0 < vfun vv1 i)).
  { rewrite Nat.eqb_sym. destruct (Nat.eqb_spec p k) as [->|Hne]; cbn [negb].
    - exists m, vv. split; [rewrite Rmult_1_r; reflexivity| ]. split; [ |exact Hv].
      intros a b _ _. now rewrite swap_row_refl.
    - destruct (lu_swap_spec n m k p Hk ltac:(lia)) as (m1 & -> & F1). cbn [bind].
      rewrite vfun_aget by assumption. cbn [bind].
      destruct (aset_fun n vv p (vfun vv k) ltac:(lia)) as (vv1 & -> & F2). cbn [bind].
      exists m1, vv1. split; [ |split; [exact F1| ]].
      + cbn [neg R_Signed]. replace (d * -1) with (- d) by ring. reflexivity.
      + intros i Hi. rewrite F2 by assumption. destruct (Nat.eqb i p); apply Hv; assumption. }
  destruct SW as (m1 & vv1 & -> & F1 & Hv1). cbn [bind].
  destruct (pos_aset n ix k p Hk) as (ix' & -> & Fi). cbn [bind].
  rewrite mfun_mget by assumption. cbn [bind].
  destruct I as [I1 I2 I3 I4 I5 I6].
  assert (Eeq : forall i, (k <= i)%nat -> e i = 0).
  { intros i Hi. destruct (I5 i) as [?|[? _]]; [assumption|lia]. }
  assert (Ex : exchange k (pos ix') A = exchange k (pos ix) A).
  { apply exchange_ext. intros i Hi. rewrite Fi. destruct (Nat.eqb_spec i k); [lia|reflexivity]. }
  assert (P1 : partial_lu n k (exchange (S k) (pos ix') A) (mfun m1) e).
  { cbn [exchange]. rewrite Ex, Fi, Nat.eqb_refl.
    apply (partial_lu_swap n k p _ (mfun m)); auto. }
  (* the pivot, whether or not it is replaced *)
  set (x := if Reqb (mfun m1 k k) 0 then r_1em40 else 0).
  assert (PV : exists m2, (if eqb (mfun m1 k k) zero then mset m1 k k lit_1em40 else Ok m1) = Ok m2
      /\ (forall a b, (a < n)%nat -> (b < n)%nat ->
           mfun m2 a b = if Nat.eqb a k && Nat.eqb b k then mfun m1 k k + x else mfun m1 a b)).
  { cbn [eqb R_Num zero lit_1em40 R_Float]. unfold x.
    destruct (Reqb_spec (mfun m1 k k) 0) as [Hz|Hz].
    - destruct (mset_fun n m1 k k r_1em40 Hk Hk) as (m2 & -> & F2). exists m2.
      split; [reflexivity| ]. intros a b Ha Hb. rewrite F2 by assumption.
      destruct (Nat.eqb a k && Nat.eqb b k); [rewrite Hz; ring|reflexivity].
    - exists m1. split; [reflexivity| ]. intros a b Ha Hb.
      destruct (Nat.eqb_spec a k) as [->| ], (Nat.eqb_spec b k) as [->| ]; cbn [andb]; try reflexivity.
      ring. }
  destruct PV as (m2 & -> & F2). cbn [bind].
  assert (Hpiv : mfun m2 k k <> 0).
  { rewrite F2 by assumption. rewrite Nat.eqb_refl. cbn [andb]. unfold x.
    pose proof (tiny_pos K OK). destruct (Reqb_spec (mfun m1 k k) 0) as [Hz|Hz]; lra. }
  pose proof (partial_lu_pivot n k _ _ _ e x Hk (Eeq k ltac:(lia)) F2 P1) as P2.
  destruct (lu_eliminate_spec n m2 k Hk) as (m3 & -> & F3). cbn [bind].
  pose proof (partial_lu_elim n k _ _ _ _ Hk Hpiv F3 P2) as P3.
  exists m3, vv1, (d * (if Nat.eqb p k then 1 else -1)), ix', (fun i => if Nat.eqb i k then x else e i).
  split; [reflexivity| ]. split; [exact Hv1| ]. split.
  - exact P3.
  - intros l Hl. rewrite Fi. destruct (Nat.eqb_spec l k) as [->| ]; [lia| ]. apply I2. lia.
  - unfold sign_of in *. cbn [prodn mul R_Num]. rewrite Fi, Nat.eqb_refl. f_equal.
    rewrite I3. apply prodn_ext. intros l Hl. rewrite Fi.
    destruct (Nat.eqb_spec l k); [lia|reflexivity].
  - intros l Hl. rewrite F3 by lia. unfold elim_row.
    destruct (Nat.ltb_spec k l); [lia| ].
    destruct (Nat.eq_dec l k) as [->| ]; [exact Hpiv| ].
    rewrite F2 by lia. destruct (Nat.eqb_spec l k); [lia| ]. cbn [andb].
    rewrite F1 by lia. unfold swap_row.
    destruct (Nat.eqb_spec l k); [lia| ]. destruct (Nat.eqb_spec l p); [lia| ]. apply I4. lia.
  - intros l. destruct (Nat.eqb_spec l k) as [->| ].
    + unfold x. destruct (Reqb (mfun m1 k k) 0); [right; split; [lia|reflexivity]|left; reflexivity].
    + destruct (I5 l) as [?|[? ?]]; [left; assumption|right; split; [lia|assumption]].
  - intros Hdet. specialize (I6 Hdet).
    assert (Hx : x = 0).
    { unfold x. destruct (Reqb_spec (mfun m1 k k) 0) as [Hz|Hz]; [ |reflexivity].
      exfalso. rewrite F1 in Hz by assumption. unfold swap_row in Hz. rewrite Nat.eqb_refl in Hz.
      specialize (Hpz Hz).
      assert (Z : ldet n (exchange k (pos ix) A) = 0).
      { apply (partial_lu_singular n k _ (mfun m) Hk).
        - intros i j Hi Hj. rewrite <- I1 by assumption. f_equal. unfold diag. now rewrite I6.
        - exact Hpz. }
      rewrite ldet_exchange in Z; [ |lia|exact I2].
      apply Rmult_integral in Z as [Z|Z]; [now apply sign_of_nonzero in Z|contradiction]. }
    intros l. destruct (Nat.eqb l k); [exact Hx|apply I6].
Qed.

Theorem lu_factor_inv n (A : mat R n) : (0 < n)%nat -> ~ row0_zero A ->
  exists m d ix e, lu_factor A = Ok (m, d, ix) /\ lu_inv n n (mfun A) (mfun m) d (pos ix) e.
Proof.
  intros Hn Hz. unfold lu_factor.
  destruct (lu_scaling_ok n A (amake n zero) Hn Hz) as (vv & -> & Hv). cbn [bind].
  destruct (for_inv (fun k (st : mat R n * arr R n * R * arr nat n) =>
      let '(m, vv, d, ix) := st in
      (forall i, (i < n)%nat -> 0 < vfun vv i) /\
      exists e, lu_inv n k (mfun A) (mfun m) d (pos ix) e)
    lu_step 0 n (A, vv, one, amake n 0%nat)) as ((((m & vv') & d) & ix) & E & Hv' & e & I).
  - lia.
  - split; [exact Hv| ]. exists (fun _ => 0). split.
    + apply partial_lu_start.
    + intros; lia.
    + reflexivity.
    + intros; lia.
    + intros; left; reflexivity.
    + reflexivity.
  - intros k (((m & vv1) & d) & ix) Hk (Hv1 & e & I).
    destruct (lu_step_inv n (mfun A) k m vv1 d ix e ltac:(lia) Hv1 I)
      as (m' & vv' & d' & ix' & e' & E & Hv' & I').
    exists (m', vv', d', ix'). split; [exact E| ]. split; [exact Hv'| ]. exists e'. exact I'.
  - rewrite E. cbn [bind]. exists m, d, ix, e. split; [reflexivity|exact I].
Qed.

Theorem lu_factor_panic n (A : mat R n) : (0 < n)%nat -> row0_zero A -> lu_factor A = Panic.
Proof. intros Hn Hz. unfold lu_factor. now rewrite lu_scaling_panic. Qed.

(** ** Reading the result *)

Lemma rem_end n m i j : (i < n)%nat -> rem n m i j = 0.
Proof. intros Hi. unfold rem. destruct (Nat.leb_spec n i); [lia|reflexivity]. Qed.

Lemma lu_inv_product n A m d p e : lu_inv n n A m d p e ->
  forall i j, (i < n)%nat -> (j < n)%nat ->
  mmul n (Lpart m) (Upart m) i j = exchange n p A i j + diag e i j.
Proof.
  intros I i j Hi Hj. rewrite (inv_lu _ _ _ _ _ _ _ I) by assumption.
  rewrite rem_end by assumption. rewrite Rplus_0_r. reflexivity.
Qed.

Lemma det_LU n m : ldet n (mmul n (Lpart m) (Upart m)) = prodn n (fun i => m i i).
Proof.
  rewrite (ldet_mul R_ring), (ldet_lower R_ring), (ldet_upper R_ring).
  - replace (prodn n (fun i => Lpart m i i)) with 1.
    + cbn [mul R_Num]. rewrite Rmult_1_l. apply prodn_ext. intros i Hi. unfold Upart.
      now rewrite Nat.leb_refl.
    + symmetry. induction n as [ |n IH]; [reflexivity| ]. cbn [prodn]. rewrite IH.
      unfold Lpart. rewrite Nat.ltb_irrefl, Nat.eqb_refl. cbn. ring.
  - intros i j _ _ Hij. unfold Upart. destruct (Nat.leb_spec i j); [lia|reflexivity].
  - intros i j _ _ Hij. unfold Lpart. destruct (Nat.ltb_spec j i); [lia| ].
    destruct (Nat.eqb_spec j i); [lia|reflexivity].
Qed.

Lemma prodn_nonzero n f : (forall i, (i < n)%nat -> f i <> 0) -> @prodn R R_Num n f <> 0.
Proof.
  induction n as [ |n IH]; intros H; cbn [prodn]; [cbn; lra| ].
  cbn [mul R_Num]. apply Rmult_integral_contrapositive. split; [apply IH; auto|apply H; lia].
Qed.

Lemma sign_of_sq n p : sign_of n p * sign_of n p = 1.
Proof.
  unfold sign_of. induction n as [ |n IH]; cbn [prodn]; [cbn; lra| ].
  cbn [mul R_Num]. destruct (Nat.eqb (p n) n); nra.
Qed.

(** The reported determinant [d * U00 * U11 * ...]. *)
Lemma lu_inv_det n A m d p e : lu_inv n n A m d p e -> ldet n A <> 0 ->
  d * prodn n (fun i => m i i) = ldet n A.
Proof.
  intros I Hd. rewrite <- det_LU.
  rewrite (ldet_ext n _ (exchange n p A)).
  - rewrite ldet_exchange; [ |lia|apply (inv_pos _ _ _ _ _ _ _ I)].
    rewrite (inv_sign _ _ _ _ _ _ _ I), <- Rmult_assoc, sign_of_sq. ring.
  - intros i j Hi Hj. rewrite (lu_inv_product _ _ _ _ _ _ I) by assumption.
    unfold diag. rewrite (inv_regular _ _ _ _ _ _ _ I Hd).
    destruct (Nat.eqb i j); ring.
Qed.

Lemma lu_inv_det_nonzero n A m d p e : lu_inv n n A m d p e ->
  d * prodn n (fun i => m i i) <> 0.
Proof.
  intros I. apply Rmult_integral_contrapositive. split.
  - rewrite (inv_sign _ _ _ _ _ _ _ I). apply sign_of_nonzero.
  - apply prodn_nonzero. apply (inv_diag _ _ _ _ _ _ _ I).
Qed.

End LU.
