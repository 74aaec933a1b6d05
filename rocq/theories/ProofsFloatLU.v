(** * ProofsFloatLU: the accuracy of lu() on floats (C86) *)

From Coq Require Import List Arith ZArith Reals Bool Lra Lia.
From Flocq Require Import Core Relative Plus_error IEEE754.BinarySingleNaN.
From Verif Require Import Base Scalar Vec Mat2 Mat3 Mat4 Mat5 Mat6 Slices MatLoops MatOps RingDet Spec LoopFacts Entries InstZ InstR InstF FloatFacts LUFacts ProofsFloatErr.
Local Open Scope R_scope.

(** ** the shape of one step, for every scalar type *)
Section Any.
Context {T : Type} {nT : Num T} {sT : Signed T} {oT : POrd T} {fT : Float T}.

Lemma any_pivot n (m : mat T n) (vv : arr T n) k : (k < n)%nat ->
  exists p, lu_pivot m vv k = Ok p /\ (k <= p < n)%nat.
Proof.
  intros Hk. unfold lu_pivot.
  destruct (for_inv (fun _ (st : T * nat) => (k <= snd st < n)%nat)
    (fun i (st : T * nat) =>
      let ' (big, i_max) := st in
      v <- aget vv i ;; x <- mget m i k ;;
      let temp := mul v (abs x) in
      Ok (if ltb big temp then (temp, i) else (big, i_max))) k n (zero, k)) as ((big & p) & E & H).
  - lia.
  - cbn [snd]. lia.
  - intros i (big, p) Hi H. cbn [snd] in H. rewrite vfun_aget by lia. cbn [bind]. rewrite mfun_mget by lia. cbn [bind].
    eexists. split; [reflexivity| ]. cbv zeta. destruct (ltb big _); cbn [snd]; lia.
  - cbv zeta in E. rewrite E. cbn [bind snd] in *. exists p. auto.
Qed.

Lemma any_swap n (m : mat T n) k p : (k < n)%nat -> (p < n)%nat ->
  exists m', lu_swap m k p = Ok m' /\ forall a b, (a < n)%nat -> (b < n)%nat ->
    mfun m' a b = swap_row k p (mfun m) a b.
Proof.
  intros Hk Hp. unfold lu_swap.
  destruct (for_inv (fun j (m1 : mat T n) => forall a b, (a < n)%nat -> (b < n)%nat ->
      mfun m1 a b = if Nat.ltb b j then swap_row k p (mfun m) a b else mfun m a b)
    (fun j lu =>
      temp <- mget lu p j ;;
      x <- mget lu k j ;;
      lu <- mset lu p j x ;;
      mset lu k j temp) 0 n m) as (m' & E & H).
  - lia.
  - intros. reflexivity.
  - intros j m1 Hj H1. rewrite !mfun_mget by lia. cbn [bind].
    destruct (mset_fun n m1 p j (mfun m1 k j) Hp ltac:(lia)) as (m2 & -> & F2). cbn [bind].
    destruct (mset_fun n m2 k j (mfun m1 p j) Hk ltac:(lia)) as (m3 & -> & F3).
    exists m3. split; [reflexivity| ]. intros a b Ha Hb.
    rewrite F3, F2 by assumption.
    pose proof (H1 p j ltac:(lia) ltac:(lia)) as Ep.
    pose proof (H1 k j ltac:(lia) ltac:(lia)) as Ek.
    rewrite Nat.ltb_irrefl in Ep, Ek. rewrite Ep, Ek. rewrite H1 by assumption.
    unfold swap_row.
    destruct (Nat.eqb_spec b j) as [->|Hbj].
    + rewrite Nat.ltb_irrefl, !andb_true_r.
      destruct (Nat.ltb_spec j (S j)); [ |lia].
      destruct (Nat.eqb_spec a k) as [->| ]; [reflexivity| ].
      destruct (Nat.eqb_spec a p) as [->| ]; reflexivity.
    + rewrite !andb_false_r.
      destruct (Nat.ltb_spec b j), (Nat.ltb_spec b (S j)); try lia; reflexivity.
  - exists m'. split; [exact E| ]. intros a b Ha Hb. rewrite H by assumption.
    destruct (Nat.ltb_spec b n); [reflexivity|lia].
Qed.

Definition any_elim (m : nat -> nat -> T) (k i j : nat) : T :=
  if Nat.ltb k i then
    if Nat.eqb j k then div (m i k) (m k k)
    else if Nat.ltb k j then sub (m i j) (mul (div (m i k) (m k k)) (m k j))
    else m i j
  else m i j.

Lemma any_eliminate n (m : mat T n) k : (k < n)%nat ->
  exists m', lu_eliminate m k = Ok m' /\ forall a b, (a < n)%nat -> (b < n)%nat ->
    mfun m' a b = any_elim (mfun m) k a b.
Proof.
  intros Hk. unfold lu_eliminate.
  set (inner := fun (i : nat) (lu : mat T n) => for_ (k + 1) n lu (fun j lu =>
      x <- mget lu i j ;; f <- mget lu i k ;; y <- mget lu k j ;;
      mset lu i j (sub x (mul f y)))).
  assert (Hin : forall i (m1 : mat T n), (k < i < n)%nat ->
    exists m2, inner i m1 = Ok m2 /\ forall a b, (a < n)%nat -> (b < n)%nat ->
      mfun m2 a b = if Nat.eqb a i && Nat.ltb k b
                    then sub (mfun m1 i b) (mul (mfun m1 i k) (mfun m1 k b)) else mfun m1 a b).
  { intros i m1 Hi. unfold inner.
    destruct (for_inv (fun j (m2 : mat T n) => forall a b, (a < n)%nat -> (b < n)%nat ->
        mfun m2 a b = if Nat.eqb a i && Nat.ltb k b && Nat.ltb b j
                      then sub (mfun m1 i b) (mul (mfun m1 i k) (mfun m1 k b)) else mfun m1 a b)
      (fun j lu =>
        x <- mget lu i j ;; f <- mget lu i k ;; y <- mget lu k j ;;
        mset lu i j (sub x (mul f y))) (k + 1) n m1) as (m2 & E & H).
    - lia.
    - intros a b Ha Hb. destruct (Nat.ltb_spec k b), (Nat.ltb_spec b (k + 1)); try lia;
        rewrite ?andb_false_r; reflexivity.
    - intros j m2 Hj H2. rewrite !mfun_mget by lia. cbn [bind].
      destruct (mset_fun n m2 i j (sub (mfun m2 i j) (mul (mfun m2 i k) (mfun m2 k j)))
        ltac:(lia) ltac:(lia)) as (m3 & -> & F3).
      exists m3. split; [reflexivity| ]. intros a b Ha Hb. rewrite F3 by assumption.
      rewrite !H2 by lia.
      rewrite Nat.eqb_refl. rewrite Nat.ltb_irrefl.
      destruct (Nat.eqb_spec k i); [lia| ]. cbn [andb]. rewrite !andb_false_r.
      rewrite (Nat.ltb_irrefl k). cbn [andb].
      destruct (Nat.eqb_spec a i) as [->| ]; cbn [andb]; [ |reflexivity].
      destruct (Nat.eqb_spec b j) as [->| ].
      + destruct (Nat.ltb_spec k j); [ |lia]. destruct (Nat.ltb_spec j (S j)); [ |lia].
        reflexivity.
      + destruct (Nat.ltb_spec b j), (Nat.ltb_spec b (S j)); try lia; reflexivity.
    - exists m2. split; [exact E| ]. intros a b Ha Hb. rewrite H by assumption.
      destruct (Nat.ltb_spec b n); [ |lia]. rewrite andb_true_r. reflexivity. }
  destruct (for_inv (fun i (m1 : mat T n) => forall a b, (a < n)%nat -> (b < n)%nat ->
      mfun m1 a b = if Nat.ltb a i then any_elim (mfun m) k a b else mfun m a b)
    (fun i lu => a <- mget lu i k ;; p <- mget lu k k ;;
      lu <- mset lu i k (div a p) ;; inner i lu) (k + 1) n m) as (m' & E & H).
  - lia.
  - intros a b Ha Hb. unfold any_elim.
    destruct (Nat.ltb_spec a (k + 1)), (Nat.ltb_spec k a); try lia; reflexivity.
  - intros i m1 Hi H1. rewrite !mfun_mget by lia. cbn [bind].
    destruct (mset_fun n m1 i k (div (mfun m1 i k) (mfun m1 k k)) ltac:(lia) Hk)
      as (m2 & -> & F2). cbn [bind].
    destruct (Hin i m2 ltac:(lia)) as (m3 & -> & F3).
    exists m3. split; [reflexivity| ]. intros a b Ha Hb. rewrite F3 by assumption.
    rewrite !F2 by lia.
    assert (Ekk : forall c, (c < n)%nat -> mfun m1 k c = mfun m k c).
    { intros c Hc. rewrite H1 by lia. unfold any_elim.
      destruct (Nat.ltb_spec k k); [lia| ]. destruct (Nat.ltb k i); reflexivity. }
    assert (Eii : forall c, (c < n)%nat -> mfun m1 i c = mfun m i c).
    { intros c Hc. rewrite H1 by lia. rewrite Nat.ltb_irrefl. reflexivity. }
    rewrite Nat.eqb_refl. destruct (Nat.eqb_spec k i); [lia| ]. cbn [andb].
    rewrite !Nat.eqb_refl.
    rewrite !Ekk, Eii by lia.
    destruct (Nat.eqb_spec a i) as [->|Hai]; cbn [andb].
    + destruct (Nat.ltb_spec i (S i)); [ |lia]. unfold any_elim.
      destruct (Nat.ltb_spec k i); [ |lia].
      destruct (Nat.eqb_spec b k) as [->| ].
      * rewrite Nat.ltb_irrefl. reflexivity.
      * rewrite !Eii by lia. destruct (Nat.ltb_spec k b); reflexivity.
    + rewrite H1 by assumption.
      destruct (Nat.ltb_spec a i), (Nat.ltb_spec a (S i)); try lia; reflexivity.
  - exists m'. split; [exact E| ]. intros a b Ha Hb. rewrite H by assumption.
    destruct (Nat.ltb_spec a n); [reflexivity|lia].
Qed.

(** exchange, pivot, elimination *)
Lemma any_step n (m : mat T n) vv s ix k : (k < n)%nat ->
  exists m' vv' s' ix' p (m1 m2 : mat T n), lu_step k (m, vv, s, ix) = Ok (m', vv', s', ix')
    /\ (k <= p < n)%nat
    /\ (forall a, pos ix' a = if Nat.eqb a k then p else pos ix a)
    /\ (forall a b, (a < n)%nat -> (b < n)%nat -> mfun m1 a b = swap_row k p (mfun m) a b)
    /\ (forall a b, (a < n)%nat -> (b < n)%nat ->
          mfun m2 a b = if Nat.eqb a k && Nat.eqb b k && eqb (mfun m1 k k) zero then lit_1em40 else mfun m1 a b)
    /\ (forall a b, (a < n)%nat -> (b < n)%nat -> mfun m' a b = any_elim (mfun m2) k a b).
Proof.
  intros Hk. unfold lu_step.
  destruct (any_pivot n m vv k Hk) as (p & -> & Hp). cbn [bind].
  assert (SW : exists m1 vv1 s1, (if negb (Nat.eqb k p)
       then lu <- lu_swap m k p ;; v <- aget vv k ;; vv <- aset vv p v ;; Ok (lu, vv, neg s)
       else Ok (m, vv, s)) = Ok (m1, vv1, s1)
      /\ (forall a b, (a < n)%nat -> (b < n)%nat -> mfun m1 a b = swap_row k p (mfun m) a b)).
  { rewrite Nat.eqb_sym. destruct (Nat.eqb_spec p k) as [->|Hne]; cbn [negb].
    - exists m, vv, s. split; [reflexivity| ]. intros a b _ _. unfold swap_row. destruct (Nat.eqb_spec a k) as [->| ]; reflexivity.
    - destruct (any_swap n m k p Hk ltac:(lia)) as (m1 & -> & F1). cbn [bind].
      rewrite vfun_aget by assumption. cbn [bind].
      destruct (aset_fun n vv p (vfun vv k) ltac:(lia)) as (vv1 & -> & F2). cbn [bind].
      exists m1, vv1, (neg s). auto. }
  destruct SW as (m1 & vv1 & s1 & -> & F1). cbn [bind].
  destruct (pos_aset n ix k p Hk) as (ix' & -> & Fi). cbn [bind].
  rewrite mfun_mget by assumption. cbn [bind].
  assert (PV : exists m2, (if eqb (mfun m1 k k) zero then mset m1 k k lit_1em40 else Ok m1) = Ok m2
      /\ (forall a b, (a < n)%nat -> (b < n)%nat ->
           mfun m2 a b = if Nat.eqb a k && Nat.eqb b k && eqb (mfun m1 k k) zero then lit_1em40 else mfun m1 a b)).
  { destruct (eqb (mfun m1 k k) zero).
    - destruct (mset_fun n m1 k k lit_1em40 Hk Hk) as (m2 & -> & F2). exists m2.
      split; [reflexivity| ]. intros a b Ha Hb. rewrite F2, andb_true_r by assumption. reflexivity.
    - exists m1. split; [reflexivity| ]. intros a b Ha Hb. rewrite andb_false_r. reflexivity. }
  destruct PV as (m2 & -> & F2). cbn [bind].
  destruct (any_eliminate n m2 k Hk) as (m3 & -> & F3). cbn [bind].
  exists m3, vv1, s1, ix', p, m1, m2. auto 10.
Qed.
End Any.

(** ** the invariant *)

(** the product of the first [k] columns and rows, and of their absolute values *)
Definition lu_sum (k : nat) (m : nat -> nat -> R) (i j : nat) : R := sumn k (fun l => Lpart m i l * Upart m l j).
Definition lu_abs (k : nat) (m : nat -> nat -> R) (i j : nat) : R := sumn k (fun l => Rabs (Lpart m i l) * Rabs (Upart m l j)).

(** weight of the underflow term: a quotient that underflows is off by [eta], so the product with the pivot by [eta |U_jj|] *)
Definition lu_weight (k : nat) (m : nat -> nat -> R) (j : nat) : R := if Nat.ltb j k then 1 + Rabs (m j j) else 1.

Lemma lu_abs_pos k m i j : 0 <= lu_abs k m i j.
Proof.
  unfold lu_abs. induction k as [ |k IH]; cbn [sumn]; [cbn; lra| ]. cbn [add R_Num].
  pose proof (Rmult_le_pos _ _ (Rabs_pos (Lpart m i k)) (Rabs_pos (Upart m k j))). lra.
Qed.

Lemma lu_weight_pos k m j : 1 <= lu_weight k m j.
Proof. unfold lu_weight. pose proof (Rabs_pos (m j j)). destruct (Nat.ltb j k); lra. Qed.

(** rows [i] of [m'] and [s] of [m] are the same and so are the first [k] *)
Lemma lu_row k n m m' i s j : (k <= i)%nat -> (k <= s)%nat -> (k <= n)%nat -> (j < n)%nat ->
  (forall b, (b < n)%nat -> m' i b = m s b) -> (forall a b, (a < k)%nat -> (b < n)%nat -> m' a b = m a b) ->
  lu_sum k m' i j = lu_sum k m s j /\ lu_abs k m' i j = lu_abs k m s j /\ rem k m' i j = rem k m s j.
Proof.
  intros Hi Hs Hkn Hj Hr Hu.
  assert (X : forall l, (l < k)%nat -> Lpart m' i l = Lpart m s l /\ Upart m' l j = Upart m l j).
  { intros l Hl. unfold Lpart, Upart. destruct (Nat.ltb_spec l i), (Nat.ltb_spec l s); try lia.
    split; [apply Hr; lia| ]. destruct (Nat.leb l j); [apply Hu; lia|reflexivity]. }
  split; [ |split].
  - apply sumn_ext. intros l Hl. destruct (X l Hl) as [-> ->]. reflexivity.
  - apply sumn_ext. intros l Hl. destruct (X l Hl) as [-> ->]. reflexivity.
  - unfold rem. destruct (Nat.leb_spec k i), (Nat.leb_spec k s); try lia. cbn [andb]. destruct (Nat.leb k j); [apply Hr; lia|reflexivity].
Qed.

(** the first [k] rows and columns are the same *)
Lemma lu_same k m m' i j : (forall b, (b < k)%nat -> (b < i)%nat -> m' i b = m i b) ->
  (forall a, (a < k)%nat -> (a <= j)%nat -> m' a j = m a j) ->
  lu_sum k m' i j = lu_sum k m i j /\ lu_abs k m' i j = lu_abs k m i j.
Proof.
  intros Hl Hu.
  assert (X : forall l, (l < k)%nat -> Lpart m' i l = Lpart m i l /\ Upart m' l j = Upart m l j).
  { intros l L. unfold Lpart, Upart. split.
    - destruct (Nat.ltb_spec l i); [apply Hl; lia|reflexivity].
    - destruct (Nat.leb_spec l j); [apply Hu; lia|reflexivity]. }
  split; apply sumn_ext; intros l L; destruct (X l L) as [-> ->]; reflexivity.
Qed.

(** one step of the error analysis *)
Lemma step_in u b S A x p z G N h : 0 <= u -> 1 <= G -> 0 <= A -> 0 <= h ->
  Rabs (b - S - x) <= (G - 1) * (A + Rabs x) + N -> Rabs (x - p - z) <= u * (Rabs z + Rabs p) + h ->
  Rabs (b - (S + p) - z) <= ((1 + u) * G - 1) * (A + Rabs p + Rabs z) + (N + G * h).
Proof.
  intros Hu HG HA Hh H1 H2.
  assert (X : Rabs x <= (1 + u) * (Rabs z + Rabs p) + h).
  { replace x with ((x - p - z) + (p + z)) by ring. eapply Rle_trans; [apply Rabs_triang| ].
    pose proof (Rabs_triang p z). lra. }
  replace (b - (S + p) - z) with ((b - S - x) + (x - p - z)) by ring. eapply Rle_trans; [apply Rabs_triang| ].
  pose proof (Rabs_pos z). pose proof (Rabs_pos p).
  assert ((G - 1) * Rabs x <= (G - 1) * ((1 + u) * (Rabs z + Rabs p) + h)) by (apply Rmult_le_compat_l; lra).
  assert ((G - 1) * A <= ((1 + u) * G - 1) * A) by (apply Rmult_le_compat_r; [lra|nra]).
  nra.
Qed.

Section F.
Context {prec emax : Z} {Hp : Prec_gt_0 prec} {He : Prec_lt_emax prec emax} {O : FOracle (binary_float prec emax)}.
Notation fl := (binary_float prec emax).
Notation emin := (3 - emax - prec)%Z.
Notation fe := (FLT_exp emin prec).
Notation rnd := (round radix2 fe ZnearestE).
Notation uro := (uro (prec := prec)).
Notation eta := (eta (prec := prec) (emax := emax)).

(** the error of a rounding in terms of the rounded value *)
Lemma rnd_back z : Rabs (rnd z - z) <= uro * Rabs (rnd z) + eta.
Proof.
  eapply Rle_trans; [apply (error_le_half_ulp_round radix2 fe)| ].
  pose proof (Rabs_pos (rnd z)). pose proof (uro_pos (prec := prec)) as U. pose proof (eta_pos (prec := prec) (emax := emax)) as E.
  destruct (Rlt_le_dec (Rabs (rnd z)) (bpow radix2 (emin + prec))) as [L|L].
  - rewrite (ulp_FLT_small radix2 emin prec _ L). fold eta. nra.
  - assert (L' : bpow radix2 (emin + prec - 1) <= Rabs (rnd z)) by (eapply Rle_trans; [apply bpow_le|exact L]; lia).
    pose proof (ulp_FLT_le radix2 emin prec _ L') as X. unfold uro. lra.
Qed.

Lemma minus_back (x y : fl) : is_finite (Bminus mode_NE x y) = true ->
  is_finite x = true /\ is_finite y = true /\
  Rabs (B2R x - B2R y - B2R (Bminus mode_NE x y)) <= uro * Rabs (B2R (Bminus mode_NE x y)).
Proof.
  intros F. destruct (minus_finite x y F) as (Fx & Fy & E). rewrite E. split; [exact Fx|split; [exact Fy| ]].
  pose proof (uro_pos (prec := prec)) as U.
  assert (Fmt : generic_format radix2 fe (- B2R y)) by (apply generic_format_opp, format_B2R).
  destruct (FLT_plus_error_N_ex radix2 emin prec (fun z => negb (Z.even z)) (B2R x) (- B2R y) (format_B2R x) Fmt) as (e & Le & X).
  replace (B2R x + - B2R y) with (B2R x - B2R y) in X by ring. rewrite X. set (z := B2R x - B2R y) in *.
  replace (z - z * (1 + e)) with (z * - e) by ring. rewrite !Rabs_mult, Rabs_Ropp.
  unfold u_ro in Le. replace (- prec + 1)%Z with (1 - prec)%Z in Le by ring. fold uro in Le.
  replace (uro * (Rabs z * Rabs (1 + e))) with (Rabs z * (uro * Rabs (1 + e))) by ring.
  apply Rmult_le_compat_l; [apply Rabs_pos| ].
  assert (L1 : Rabs e <= uro / (1 + uro)) by exact Le.
  assert (L2 : 1 - uro / (1 + uro) <= Rabs (1 + e)).
  { pose proof (Rabs_triang_inv 1 (- e)) as T. rewrite Rabs_R1, Rabs_Ropp in T. replace (1 - - e) with (1 + e) in T by ring. lra. }
  apply Rle_trans with (uro * (1 - uro / (1 + uro))); [ |apply Rmult_le_compat_l; lra].
  apply Rle_trans with (1 := L1). apply Req_le. field. lra.
Qed.

Lemma div_back (x y : fl) : is_finite y = true -> B2R y <> 0 -> is_finite (Bdiv mode_NE x y) = true ->
  is_finite x = true /\
  Rabs (B2R x - B2R (Bdiv mode_NE x y) * B2R y) <= uro * Rabs (B2R (Bdiv mode_NE x y) * B2R y) + eta * Rabs (B2R y).
Proof.
  intros Fy Hy F. pose proof (Bdiv_correct prec emax Hp He mode_NE x y Hy) as C.
  destruct (Rlt_bool _ _) in C.
  2:{ exfalso. destruct (Bdiv mode_NE x y); cbn in F, C; discriminate. }
  destruct C as (C1 & C2 & _). rewrite F in C2. symmetry in C2. split; [exact C2| ].
  pose proof (rnd_back (B2R x / B2R y)) as B. cbn [round_mode] in C1. rewrite fe_eq in C1. rewrite <- C1 in B.
  set (l := B2R (Bdiv mode_NE x y)) in *.
  replace (B2R x - l * B2R y) with (- ((l - B2R x / B2R y) * B2R y)) by (field; exact Hy).
  rewrite Rabs_Ropp, !Rabs_mult. pose proof (Rabs_pos (B2R y)). nra.
Qed.

Definition fin_mat {n} (m : mat fl n) : Prop := forall i j, (i < n)%nat -> (j < n)%nat -> is_finite (mfun m i j) = true.
Notation val m := (fun i j => B2R (mfun m i j)).

Definition lu_err (k : nat) (m : nat -> nat -> R) (i j : nat) : R :=
  ((1 + uro) ^ k - 1) * (lu_abs k m i j + Rabs (rem k m i j)) + INR k * (1 + uro) ^ k * eta * lu_weight k m j.

Definition flu (n k : nat) (B m : nat -> nat -> R) (e : nat -> R) : Prop := forall i j, (i < n)%nat -> (j < n)%nat ->
  Rabs (B i j + diag e i j - (lu_sum k m i j + rem k m i j)) <= lu_err k m i j.

Lemma G1 k : 1 <= (1 + uro) ^ k.
Proof. apply pow_R1_Rle. pose proof (uro_pos (prec := prec)). lra. Qed.

Lemma flu_start n A : flu n 0 A A (fun _ => 0).
Proof.
  intros i j Hi Hj. unfold lu_err, lu_sum, lu_abs, rem, diag. cbn [sumn Nat.leb andb INR pow zero R_Num].
  replace (A i j + _ - _) with 0 by (destruct (Nat.eqb i j); ring). rewrite Rabs_R0. lra.
Qed.

Lemma flu_swap n k p B m m' e : (k <= p < n)%nat -> (forall i, (k <= i)%nat -> e i = 0) ->
  (forall a b, (a < n)%nat -> (b < n)%nat -> m' a b = swap_row k p m a b) ->
  flu n k B m e -> flu n k (swap_row k p B) m' e.
Proof.
  intros Hpn He0 Hm H i j Hi Hj.
  assert (R1 : forall a b, (a < k)%nat -> (b < n)%nat -> m' a b = m a b).
  { intros a b Ha Hb. rewrite Hm by lia. unfold swap_row.
    destruct (Nat.eqb_spec a k); [lia| ]. destruct (Nat.eqb_spec a p); [lia|reflexivity]. }
  assert (W : lu_weight k m' j = lu_weight k m j).
  { unfold lu_weight. destruct (Nat.ltb_spec j k); [ |reflexivity]. now rewrite R1 by lia. }
  assert (G : forall s, (k <= i)%nat -> (k <= s < n)%nat -> (forall b, (b < n)%nat -> m' i b = m s b) ->
     Rabs (B s j + diag e i j - (lu_sum k m' i j + rem k m' i j)) <= lu_err k m' i j).
  { intros s Hki Hs Hr. destruct (lu_row k n m m' i s j Hki ltac:(lia) ltac:(lia) Hj Hr R1) as (E1 & E2 & E3).
    unfold lu_err. rewrite E1, E2, E3, W. specialize (H s j ltac:(lia) Hj). unfold lu_err in H.
    replace (diag e i j) with (diag e s j); [exact H| ].
    unfold diag. rewrite !He0 by lia. destruct (Nat.eqb s j), (Nat.eqb i j); reflexivity. }
  destruct (Nat.lt_ge_cases i k) as [Hik|Hik].
  - assert (E : swap_row k p B i j = B i j).
    { unfold swap_row. destruct (Nat.eqb_spec i k); [lia| ]. destruct (Nat.eqb_spec i p); [lia|reflexivity]. }
    destruct (lu_same k m m' i j) as [E1 E2]; [intros; apply R1; lia|intros; apply R1; lia| ].
    assert (E3 : rem k m' i j = rem k m i j) by (unfold rem; destruct (Nat.leb_spec k i); [lia|reflexivity]).
    unfold lu_err. rewrite E, E1, E2, E3, W. apply H; assumption.
  - unfold swap_row at 1. destruct (Nat.eqb_spec i k) as [->|H1].
    + apply G; [lia|lia| ]. intros b Hb. rewrite Hm by lia. unfold swap_row. now rewrite Nat.eqb_refl.
    + destruct (Nat.eqb_spec i p) as [->|H2].
      * apply G; [lia|lia| ]. intros b Hb. rewrite Hm by lia. unfold swap_row.
        destruct (Nat.eqb_spec p k); [lia| ]. now rewrite Nat.eqb_refl.
      * apply G; [lia|lia| ]. intros b Hb. rewrite Hm by lia. unfold swap_row.
        destruct (Nat.eqb_spec i k); [lia| ]. destruct (Nat.eqb_spec i p); [lia| ]. reflexivity.
Qed.

(** replacing a pivot that is zero *)
Lemma flu_pivot n k B m m' e x : (k < n)%nat -> e k = 0 -> m k k = 0 \/ x = 0 ->
  (forall a b, (a < n)%nat -> (b < n)%nat -> m' a b = if Nat.eqb a k && Nat.eqb b k then m k k + x else m a b) ->
  flu n k B m e -> flu n k B m' (fun i => if Nat.eqb i k then x else e i).
Proof.
  intros Hk He0 Hz Hm H i j Hi Hj. specialize (H i j Hi Hj).
  destruct (lu_same k m m' i j) as [E1 E2].
  { intros b Hb Hbi. rewrite Hm by lia. destruct (Nat.eqb_spec b k); [lia| ]. now rewrite andb_false_r. }
  { intros a Ha Haj. rewrite Hm by lia. destruct (Nat.eqb_spec a k); [lia| ]. reflexivity. }
  assert (W : lu_weight k m' j = lu_weight k m j).
  { unfold lu_weight. destruct (Nat.ltb_spec j k); [ |reflexivity]. rewrite Hm by lia. destruct (Nat.eqb_spec j k); [lia|reflexivity]. }
  unfold lu_err in *. rewrite E1, E2, W. pose proof (G1 k) as HG.
  destruct (Nat.eqb_spec i k) as [->|Hik]; [destruct (Nat.eqb_spec j k) as [->|Hjk]| ].
  - assert (E3 : rem k m' k k = rem k m k k + x).
    { unfold rem. rewrite Nat.leb_refl. cbn [andb]. rewrite Hm by lia. rewrite Nat.eqb_refl. reflexivity. }
    rewrite E3. unfold diag in *. rewrite Nat.eqb_refl in *. rewrite He0 in H.
    replace (B k k + x - (lu_sum k m k k + (rem k m k k + x))) with (B k k + 0 - (lu_sum k m k k + rem k m k k)) by ring.
    eapply Rle_trans; [exact H| ]. apply Rplus_le_compat_r, Rmult_le_compat_l; [lra| ]. apply Rplus_le_compat_l.
    destruct Hz as [Z|Z].
    + unfold rem. rewrite Nat.leb_refl. cbn [andb]. rewrite Z, Rabs_R0. apply Rabs_pos.
    + rewrite Z, Rplus_0_r. lra.
  - assert (E3 : rem k m' k j = rem k m k j).
    { unfold rem. rewrite Hm by lia. destruct (Nat.eqb_spec j k); [lia| ]. now rewrite andb_false_r. }
    rewrite E3. unfold diag in *. destruct (Nat.eqb_spec k j); [lia|exact H].
  - assert (E3 : rem k m' i j = rem k m i j).
    { unfold rem. rewrite Hm by lia. destruct (Nat.eqb_spec i k); [lia|reflexivity]. }
    rewrite E3. unfold diag in *. destruct (Nat.eqb_spec i k); [lia|exact H].
Qed.

Lemma flu_elim n k B (m m' : mat fl n) e : (k < n)%nat -> is_finite (mfun m k k) = true -> B2R (mfun m k k) <> 0 ->
  (forall a b, (a < n)%nat -> (b < n)%nat -> mfun m' a b = any_elim (mfun m) k a b) ->
  fin_mat m' -> fin_mat m /\ (flu n k B (val m) e -> flu n (S k) B (val m') e).
Proof.
  intros Hk Fk Hz Hm Fm. pose proof (uro_pos (prec := prec)) as U. pose proof (eta_pos (prec := prec) (emax := emax)) as ET.
  assert (Old : forall a b, (a < n)%nat -> (b < n)%nat -> (a <= k \/ b < k)%nat -> mfun m' a b = mfun m a b).
  { intros a b Ha Hb Hab. rewrite Hm by assumption. unfold any_elim.
    destruct (Nat.ltb_spec k a); [ |reflexivity]. destruct (Nat.eqb_spec b k); [lia| ]. destruct (Nat.ltb_spec k b); [lia|reflexivity]. }
  assert (Col : forall a, (k < a < n)%nat -> is_finite (mfun m a k) = true /\
     Rabs (B2R (mfun m a k) - B2R (mfun m' a k) * B2R (mfun m k k)) <= uro * Rabs (B2R (mfun m' a k) * B2R (mfun m k k)) + eta * Rabs (B2R (mfun m k k))).
  { intros a Ha. pose proof (Fm a k ltac:(lia) Hk) as F.
    assert (E : mfun m' a k = Bdiv mode_NE (mfun m a k) (mfun m k k)).
    { rewrite Hm by lia. unfold any_elim. rewrite Nat.eqb_refl. destruct (Nat.ltb_spec k a); [reflexivity|lia]. }
    rewrite E in F |- *. apply div_back; assumption. }
  assert (Inn : forall a b, (k < a < n)%nat -> (k < b < n)%nat -> is_finite (mfun m a b) = true /\
     Rabs (B2R (mfun m a b) - B2R (mfun m' a k) * B2R (mfun m k b) - B2R (mfun m' a b))
       <= uro * (Rabs (B2R (mfun m' a b)) + Rabs (B2R (mfun m' a k) * B2R (mfun m k b))) + eta).
  { intros a b Ha Hb. pose proof (Fm a b ltac:(lia) ltac:(lia)) as F.
    assert (E : mfun m' a b = Bminus mode_NE (mfun m a b) (Bmult mode_NE (mfun m' a k) (mfun m k b))).
    { rewrite !Hm by lia. unfold any_elim. rewrite Nat.eqb_refl. destruct (Nat.ltb_spec k a); [ |lia].
      destruct (Nat.eqb_spec b k); [lia| ]. destruct (Nat.ltb_spec k b); [reflexivity|lia]. }
    rewrite E in F. destruct (minus_back _ _ F) as (F1 & F2 & X). rewrite <- E in X. split; [exact F1| ].
    destruct (mult_error _ _ F2) as (e1 & h1 & L1 & L2 & Y). rewrite Y in X.
    set (p := B2R (mfun m' a k) * B2R (mfun m k b)) in *. set (z := B2R (mfun m' a b)) in *. set (x := B2R (mfun m a b)) in *.
    replace (x - p - z) with ((x - (p * (1 + e1) + h1) - z) + (p * e1 + h1)) by ring.
    eapply Rle_trans; [apply Rabs_triang| ]. pose proof (Rabs_triang (p * e1) h1) as Z. rewrite Rabs_mult in Z.
    assert (Rabs p * Rabs e1 <= Rabs p * uro) by (apply Rmult_le_compat_l; [apply Rabs_pos|exact L1]). lra. }
  split.
  { intros i j Hi Hj. destruct (Nat.lt_ge_cases k i) as [Hki|Hki].
    - destruct (Nat.lt_trichotomy j k) as [L|[->|L]].
      + rewrite <- Old by lia. apply Fm; assumption.
      + apply Col; lia.
      + apply Inn; lia.
    - rewrite <- Old by lia. apply Fm; assumption. }
  intros H i j Hi Hj. specialize (H i j Hi Hj). unfold lu_err in *.
  assert (W : lu_weight k (val m) j <= lu_weight (S k) (val m') j).
  { unfold lu_weight. pose proof (Rabs_pos (B2R (mfun m' j j))). destruct (Nat.ltb_spec j k), (Nat.ltb_spec j (S k)); try lia; try lra.
    rewrite Old by lia. lra. }
  pose proof (lu_weight_pos k (val m) j) as W0. pose proof (lu_weight_pos (S k) (val m') j) as W1.
  destruct (lu_same k (val m) (val m') i j) as [E1 E2].
  { intros b Hb Hbi. rewrite Old by lia. reflexivity. }
  { intros a Ha Haj. rewrite Old by lia. reflexivity. }
  assert (D : Rabs (rem k (val m) i j - Lpart (val m') i k * Upart (val m') k j - rem (S k) (val m') i j)
     <= uro * (Rabs (rem (S k) (val m') i j) + Rabs (Lpart (val m') i k * Upart (val m') k j)) + eta * lu_weight (S k) (val m') j).
  { assert (Z : forall x y w, 1 <= w -> 0 <= uro * (Rabs x + Rabs y) + eta * w).
    { intros x y w Hw. pose proof (Rabs_pos x). pose proof (Rabs_pos y). nra. }
    unfold rem, Lpart, Upart.
    destruct (Nat.lt_trichotomy i k) as [L|[->|L]].
    - destruct (Nat.leb_spec k i), (Nat.leb_spec (S k) i), (Nat.ltb_spec k i), (Nat.eqb_spec k i); try lia. cbn [andb].
      rewrite Rmult_0_l. replace (0 - 0 - 0) with 0 by ring. rewrite Rabs_R0 at 1. apply Z, W1.
    - destruct (Nat.leb_spec k k), (Nat.leb_spec (S k) k), (Nat.ltb_spec k k); try lia. rewrite Nat.eqb_refl. cbn [andb].
      destruct (Nat.leb_spec k j).
      + rewrite Old by lia. replace (B2R (mfun m k j) - 1 * B2R (mfun m k j) - 0) with 0 by ring. rewrite Rabs_R0 at 1. apply Z, W1.
      + replace (0 - 1 * 0 - 0) with 0 by ring. rewrite Rabs_R0 at 1. apply Z, W1.
    - destruct (Nat.leb_spec k i), (Nat.leb_spec (S k) i), (Nat.ltb_spec k i); try lia. cbn [andb].
      destruct (Nat.lt_trichotomy j k) as [J|[->|J]].
      + destruct (Nat.leb_spec k j), (Nat.leb_spec (S k) j); try lia. rewrite Rmult_0_r. replace (0 - 0 - 0) with 0 by ring. rewrite Rabs_R0 at 1. apply Z, W1.
      + destruct (Nat.leb_spec k k), (Nat.leb_spec (S k) k); try lia. destruct (Col i ltac:(lia)) as [_ C].
        rewrite (Old k k) by lia. rewrite Rabs_R0, Rplus_0_l, Rminus_0_r. eapply Rle_trans; [exact C| ].
        apply Rplus_le_compat_l, Rmult_le_compat_l; [lra| ]. unfold lu_weight. destruct (Nat.ltb_spec k (S k)); [ |lia].
        rewrite (Old k k) by lia. lra.
      + destruct (Nat.leb_spec k j), (Nat.leb_spec (S k) j); try lia. destruct (Inn i j ltac:(lia) ltac:(lia)) as [_ C].
        rewrite (Old k j) by lia. eapply Rle_trans; [exact C| ]. apply Rplus_le_compat_l. nra. }
  rewrite <- E1, <- E2 in H.
  assert (S1 : lu_sum (S k) (val m') i j = lu_sum k (val m') i j + Lpart (val m') i k * Upart (val m') k j) by reflexivity.
  assert (S2 : lu_abs (S k) (val m') i j = lu_abs k (val m') i j + Rabs (Lpart (val m') i k * Upart (val m') k j)).
  { rewrite Rabs_mult. reflexivity. }
  rewrite S1, S2.
  replace (B i j + diag e i j - (lu_sum k (val m') i j + rem k (val m) i j))
    with ((B i j + diag e i j) - lu_sum k (val m') i j - rem k (val m) i j) in H by ring.
  assert (HW : 0 <= eta * lu_weight (S k) (val m') j) by nra.
  pose proof (step_in uro (B i j + diag e i j) _ _ _ _ _ ((1 + uro) ^ k) _ _ (Rlt_le _ _ U) (G1 k) (lu_abs_pos k (val m') i j) HW H D) as X.
  replace (B i j + diag e i j - (lu_sum k (val m') i j + Lpart (val m') i k * Upart (val m') k j + rem (S k) (val m') i j))
    with (B i j + diag e i j - (lu_sum k (val m') i j + Lpart (val m') i k * Upart (val m') k j) - rem (S k) (val m') i j) by ring.
  eapply Rle_trans; [exact X| ]. change ((1 + uro) ^ S k) with ((1 + uro) * (1 + uro) ^ k). apply Rplus_le_compat_l.
  rewrite S_INR. pose proof (G1 k) as HG. set (G := (1 + uro) ^ k) in *. clearbody G. pose proof (pos_INR k) as HN.
  set (N := INR k) in *. clearbody N. set (w := lu_weight k (val m) j) in *. set (w' := lu_weight (S k) (val m') j) in *.
  clearbody w w'. set (h := eta) in *. clearbody h. clear - U ET HG HN W W0 W1.
  assert (N * G * h * w <= N * G * h * w') by (apply Rmult_le_compat_l; [ |exact W]; repeat apply Rmult_le_pos; lra).
  assert (0 <= G * h * w') by (repeat apply Rmult_le_pos; lra).
  assert (N * (G * h * w') * 1 <= N * (G * h * w') * (1 + uro)) by (apply Rmult_le_compat_l; [apply Rmult_le_pos; lra|lra]).
  assert ((G * h * w') * 1 <= (G * h * w') * (1 + uro)) by (apply Rmult_le_compat_l; lra). lra.
Qed.


Lemma beq_zero (x : fl) : Beqb x (B754_zero false) = true -> is_finite x = true /\ B2R x = 0.
Proof. destruct x as [s|[]| |[] mx ex Hx]; cbn; intros H; try discriminate; auto. Qed.

Lemma beq_nonzero (x : fl) : is_finite x = true -> Beqb x (B754_zero false) = false -> B2R x <> 0.
Proof.
  intros F H Z. destruct x as [s|s| |s mx ex Hx]; try discriminate. cbn [B2R] in Z.
  apply eq_0_F2R in Z. destruct s; discriminate.
Qed.

(** the state before step [k] *)
Record fstate (n k : nat) (A m : mat fl n) (ix : arr nat n) : Prop := {
  fs_pos : forall l, (l < k)%nat -> (l <= pos ix l < n)%nat;
  fs_fin : fin_mat m -> fin_mat A;
  fs_err : fin_mat m -> exists e,
     (forall l, e l = 0 \/ ((l < k)%nat /\ e l = B2R lit_1em40 /\ mfun m l l = lit_1em40)) /\
     flu n k (exchange k (pos ix) (val A)) (val m) e
}.

Lemma fstate_step n k (A m : mat fl n) vv s ix : (k < n)%nat -> B2R lit_1em40 <> 0 -> fstate n k A m ix ->
  exists m' vv' s' ix', lu_step k (m, vv, s, ix) = Ok (m', vv', s', ix') /\ fstate n (S k) A m' ix'.
Proof.
  intros Hk HT [I1 I2 I3].
  destruct (any_step n m vv s ix k Hk) as (m' & vv' & s' & ix' & p & m1 & m2 & E & Hpn & Fi & F1 & F2 & F3).
  exists m', vv', s', ix'. split; [exact E| ].
  assert (Row : forall l, (l <= k)%nat -> mfun m' l l = mfun m2 l l).
  { intros l Hl. rewrite F3 by lia. unfold any_elim. destruct (Nat.ltb_spec k l); [lia|reflexivity]. }
  assert (Fin : fin_mat m' -> fin_mat m2 /\ fin_mat m1 /\ fin_mat m /\
     (is_finite (mfun m2 k k) = true /\ B2R (mfun m2 k k) <> 0)).
  { intros Fm. assert (Fk : is_finite (mfun m2 k k) = true) by (rewrite <- Row by lia; apply Fm; exact Hk).
    assert (Z1 : eqb (mfun m1 k k) zero = true -> is_finite (mfun m1 k k) = true) by (intros Z; apply (beq_zero _ Z)).
    assert (Hz : B2R (mfun m2 k k) <> 0).
    { pose proof (F2 k k Hk Hk) as E2. rewrite !Nat.eqb_refl in E2. cbn [andb] in E2.
      destruct (eqb (mfun m1 k k) zero) eqn:Z; rewrite E2 in *; [exact HT|apply beq_nonzero; assumption]. }
    destruct (flu_elim n k (fun _ _ => 0) m2 m' (fun _ => 0) Hk Fk Hz F3 Fm) as [Fm2 _].
    assert (Fm1 : fin_mat m1).
    { intros i j Hi Hj. pose proof (Fm2 i j Hi Hj) as F. rewrite F2 in F by assumption.
      destruct (Nat.eqb_spec i k) as [->| ]; [destruct (Nat.eqb_spec j k) as [->| ]| ]; cbn [andb] in F; try exact F.
      destruct (eqb (mfun m1 k k) zero) eqn:Z; [apply Z1; reflexivity|exact F]. }
    assert (Fm0 : fin_mat m).
    { intros i j Hi Hj. destruct (Nat.eq_dec i k) as [->|Hik]; [ |destruct (Nat.eq_dec i p) as [->|Hip]].
      - pose proof (Fm1 p j ltac:(lia) Hj) as F. rewrite F1 in F by lia. unfold swap_row in F.
        destruct (Nat.eqb_spec p k) as [->| ]; [exact F| ]. rewrite Nat.eqb_refl in F. exact F.
      - pose proof (Fm1 k j ltac:(lia) Hj) as F. rewrite F1 in F by lia. unfold swap_row in F. rewrite Nat.eqb_refl in F. exact F.
      - pose proof (Fm1 i j ltac:(lia) Hj) as F. rewrite F1 in F by lia. unfold swap_row in F.
        destruct (Nat.eqb_spec i k); [lia| ]. destruct (Nat.eqb_spec i p); [lia| ]. exact F. }
    auto 10. }
  split.
  - intros l Hl. rewrite Fi. destruct (Nat.eqb_spec l k) as [->| ]; [lia|apply I1; lia].
  - intros Fm. apply I2, Fin, Fm.
  - intros Fm. destruct (Fin Fm) as (Fm2 & Fm1 & Fm0 & Fk & Hz). destruct (I3 Fm0) as (e & Hpe & H).
    assert (E0 : forall i, (k <= i)%nat -> e i = 0) by (intros i Hi; destruct (Hpe i) as [?|[? _]]; [assumption|lia]).
    assert (Ex : exchange k (pos ix') (val A) = exchange k (pos ix) (val A)).
    { apply exchange_ext. intros i Hi. rewrite Fi. destruct (Nat.eqb_spec i k); [lia|reflexivity]. }
    assert (P1 : flu n k (exchange (S k) (pos ix') (val A)) (val m1) e).
    { cbn [exchange]. rewrite Ex, Fi, Nat.eqb_refl. apply (flu_swap n k p _ (val m)); auto.
      intros a b Ha Hb. rewrite F1 by assumption. unfold swap_row. destruct (Nat.eqb a k); [reflexivity| ]. destruct (Nat.eqb a p); reflexivity. }
    set (x := if eqb (mfun m1 k k) zero then B2R lit_1em40 else 0).
    assert (P2 : flu n k (exchange (S k) (pos ix') (val A)) (val m2) (fun i => if Nat.eqb i k then x else e i)).
    { apply (flu_pivot n k _ (val m1)); auto.
      - unfold x. destruct (eqb (mfun m1 k k) zero) eqn:Z; [left; apply (beq_zero _ Z)|right; reflexivity].
      - intros a b Ha Hb. rewrite F2 by assumption. unfold x. destruct (eqb (mfun m1 k k) zero) eqn:Z.
        + rewrite andb_true_r. destruct (Nat.eqb a k && Nat.eqb b k); [ |reflexivity].
          destruct (beq_zero _ Z) as [_ ->]. ring.
        + rewrite andb_false_r. destruct (Nat.eqb_spec a k) as [->| ], (Nat.eqb_spec b k) as [->| ]; cbn [andb]; try reflexivity. ring. }
    destruct (flu_elim n k (exchange (S k) (pos ix') (val A)) m2 m' (fun i => if Nat.eqb i k then x else e i) Hk Fk Hz F3 Fm) as [_ P3].
    exists (fun i => if Nat.eqb i k then x else e i). split; [ |apply P3, P2].
    intros l. destruct (Nat.eqb_spec l k) as [->|Hlk].
    + unfold x. destruct (eqb (mfun m1 k k) zero) eqn:Z; [right|left; reflexivity]. split; [lia| ]. split; [reflexivity| ].
      rewrite Row, F2 by lia. rewrite Nat.eqb_refl. reflexivity.
    + destruct (Hpe l) as [?|(L & V & D)]; [left; assumption|right]. split; [lia| ]. split; [exact V| ].
      rewrite Row, F2 by lia. destruct (Nat.eqb_spec l k); [lia| ]. cbn [andb]. rewrite F1 by lia. unfold swap_row.
      destruct (Nat.eqb_spec l k); [lia| ]. destruct (Nat.eqb_spec l p); [lia|exact D].
Qed.

(** ** the scaling loop *)

(** [big] is +0 until an entry other than a zero and NaN is met, then positive *)
Definition blank (x : fl) : Prop := is_nan x = true \/ Beqb x (B754_zero false) = true.

Lemma blank_dec (x : fl) : blank x \/ Bltb (B754_zero false) (Babs x) = true /\ ~ blank x.
Proof.
  unfold blank. destruct x as [s|s| |s mx ex Hx]; cbn; auto.
  - right. split; [reflexivity| ]. destruct s; intros [H|H]; discriminate.
  - right. split; [reflexivity| ]. destruct s; intros [H|H]; discriminate.
Qed.

Lemma blank_abs (x : fl) : blank x -> Bltb (B754_zero false) (Babs x) = false.
Proof. intros [H|H]; destruct x as [s|[]| |[] mx ex Hx]; cbn in *; try discriminate; reflexivity. Qed.

Lemma lt_trans0 (b x : fl) : Bltb (B754_zero false) b = true -> Bltb b (Babs x) = true -> Bltb (B754_zero false) (Babs x) = true.
Proof.
  intros H1 H2. destruct x as [s|s| |s mx ex Hx]; try reflexivity; destruct b as [t|t| |t my ey Hy]; try destruct t; cbn in *; discriminate.
Qed.

Lemma pos_nonzero (b : fl) : Bltb (B754_zero false) b = true -> Beqb b (B754_zero false) = false.
Proof. destruct b as [s|[]| |[] mx ex Hx]; cbn; intros H; try discriminate; reflexivity. Qed.

Lemma f_row_big n (A : mat fl n) i b0 : (i < n)%nat -> b0 = zero \/ Bltb zero b0 = true ->
  exists b, for_ 0 n b0 (fun j big => x <- mget A i j ;; Ok (if ltb big (abs x) then abs x else big)) = Ok b
    /\ ((b = zero /\ b0 = zero /\ forall j, (j < n)%nat -> blank (mfun A i j))
        \/ (Bltb zero b = true /\ (Bltb zero b0 = true \/ exists j, (j < n)%nat /\ ~ blank (mfun A i j)))).
Proof.
  intros Hi Hb.
  destruct (for_inv (fun k (b : fl) =>
       (b = zero /\ b0 = zero /\ forall j, (j < k)%nat -> blank (mfun A i j))
        \/ (Bltb zero b = true /\ (Bltb zero b0 = true \/ exists j, (j < n)%nat /\ ~ blank (mfun A i j))))
    (fun j big => x <- mget A i j ;; Ok (if ltb big (abs x) then abs x else big)) 0 n b0) as (b & E & H).
  - lia.
  - destruct Hb as [Hb|Hb]; [left; split; [exact Hb|split; [exact Hb|intros; lia]]|right; auto].
  - intros j b Hj H. rewrite mfun_mget by lia. cbn [bind]. eexists. split; [reflexivity| ].
    cbn [ltb F_POrd abs F_Signed]. destruct H as [(-> & H0 & H)|(H & H')].
    + destruct (blank_dec (mfun A i j)) as [D|[D N]].
      * left. cbn [zero F_Num]. rewrite (blank_abs _ D). split; [reflexivity|split; [exact H0| ]].
        intros l Hl. destruct (Nat.eq_dec l j) as [->| ]; [exact D|apply H; lia].
      * right. cbn [zero F_Num]. rewrite D. split; [exact D|right; exists j; split; [lia|exact N]].
    + right. split; [ |exact H']. destruct (Bltb b (Babs (mfun A i j))) eqn:L; [apply (lt_trans0 b); assumption|exact H].
  - exists b. auto.
Qed.

Lemma f_scaling n (A : mat fl n) vv : (0 < n)%nat ->
  ((forall j, (j < n)%nat -> blank (mfun A 0 j)) /\ lu_scaling A vv = Panic)
  \/ ((exists j, (j < n)%nat /\ ~ blank (mfun A 0 j)) /\ exists vv', lu_scaling A vv = Ok vv').
Proof.
  intros Hn. unfold lu_scaling. cbv zeta.
  destruct (f_row_big n A 0 zero Hn (or_introl eq_refl)) as (b & E & [(Hb & _ & H)|(Hb & H)]).
  - left. split; [exact H| ]. rewrite for_step by lia. rewrite E. cbn [bind]. rewrite Hb. reflexivity.
  - right. split.
    { destruct H as [H|H]; [discriminate|exact H]. }
    match goal with |- context [for_ 0 n (vv, zero) ?f] => set (body := f) end.
    destruct (for_inv (fun k (st : arr fl n * fl) => ((0 < k)%nat -> Bltb zero (snd st) = true) /\ (k = 0%nat -> snd st = zero))
      body 0 n (vv, zero)) as ((vv' & b') & E' & _).
    + lia.
    + cbn [snd]. split; [intros; lia|reflexivity].
    + intros i (vv1, b1) Hi (P1 & P2). cbn [snd] in *.
      assert (X : exists b2, for_ 0 n b1 (fun j big => x <- mget A i j ;; Ok (if ltb big (abs x) then abs x else big)) = Ok b2 /\ Bltb zero b2 = true).
      { destruct i as [ |i].
        - rewrite P2 by reflexivity. exists b. auto.
        - specialize (P1 ltac:(lia)). destruct (f_row_big n A (S i) b1 ltac:(lia) (or_intror P1)) as (b2 & E2 & [(_ & Z & _)|(H2 & _)]).
          + rewrite Z in P1. discriminate.
          + exists b2. auto. }
      destruct X as (b2 & E2 & H2). unfold body. rewrite E2. cbn [bind]. cbn [eqb F_Num]. cbn [zero F_Num] in *. rewrite (pos_nonzero _ H2).
      destruct (aset_fun n vv1 i (recip b2) ltac:(lia)) as (vv2 & -> & _). cbn [bind].
      eexists. split; [reflexivity| ]. cbn [snd]. split; [intros; exact H2|intros; lia].
    + rewrite E'. cbn [bind]. exists vv'. reflexivity.
Qed.

Lemma d_lu_any d (A : mat fl (dimn d)) : exists det : mat fl (dimn d) -> fl -> fl,
  d_lu d A = bind (lu_factor A) (fun r => let '(m, s, ix) := r in Ok (m, det m s, ix)).
Proof.
  destruct d; cbn [d_lu dimn]; eexists; [unfold m22_lu|unfold m33_lu|unfold m44_lu|unfold m55_lu|unfold m66_lu];
    destruct (lu_factor A) as [[[m s] ix]| ]; cbn [bind]; try reflexivity; cbv zeta; instantiate (1 := fun m s => _); reflexivity.
Qed.

Lemma f_loop n (A : mat fl n) vv : exists m vv' s ix, for_ 0 n (A, vv, one, amake n 0%nat) lu_step = Ok (m, vv', s, ix)
  /\ (B2R lit_1em40 <> 0 -> fstate n n A m ix).
Proof.
  destruct (for_inv (fun k (st : mat fl n * arr fl n * fl * arr nat n) =>
      let '(m, vv, s, ix) := st in B2R lit_1em40 <> 0 -> fstate n k A m ix)
    lu_step 0 n (A, vv, one, amake n 0%nat)) as ((((m & vv') & s) & ix) & E & H).
  - lia.
  - intros _. split; [intros; lia|auto| ]. intros _. exists (fun _ => 0). split; [auto|apply flu_start].
  - intros k (((m & vv1) & s) & ix) Hk H.
    destruct (any_step n m vv1 s ix k ltac:(lia)) as (m' & vv' & s' & ix' & _ & _ & _ & E & _).
    exists (m', vv', s', ix'). split; [exact E| ]. intros HT.
    destruct (fstate_step n k A m vv1 s ix ltac:(lia) HT (H HT)) as (m2 & vv2 & s2 & ix2 & E2 & H2).
    rewrite E in E2. injection E2 as <- <- <- <-. exact H2.
  - exists m, vv', s, ix. auto.
Qed.

(** lu() panics exactly when the first row holds nothing but zeros and NaNs; every other matrix, with NaNs, infinities or
    zero rows elsewhere, is factored *)
Lemma c86_lu_panic_iff : forall d (A : mat fl (dimn d)),
  d_lu d A = Panic <-> forall j, (j < dimn d)%nat -> is_nan (mfun A 0 j) = true \/ Beqb (mfun A 0 j) (B754_zero false) = true.
Proof.
  intros d A. destruct (d_lu_any d A) as (det & ->). unfold lu_factor. assert (P : (0 < dimn d)%nat) by (destruct d; cbn; lia).
  destruct (f_scaling (dimn d) A (amake (dimn d) zero) P) as [(H & ->)|((j & Hj & N) & vv & ->)]; cbn [bind].
  - split; [intros _; exact H|reflexivity].
  - destruct (f_loop (dimn d) A vv) as (m & vv' & s & ix & E & _).
    rewrite E. cbn [bind]. split; [discriminate|intros H; destruct (N (H j Hj))].
Qed.

(** the computed factors are those of a matrix within the stated distance of the row exchanged input; a pivot that vanishes
    is replaced by 1e-40 and the input is perturbed by that on the diagonal *)
Lemma c86_lu_error : forall d (A m : mat fl (dimn d)) det ix, B2R lit_1em40 <> 0 -> d_lu d A = Ok (m, det, ix) ->
  (forall i j, (i < dimn d)%nat -> (j < dimn d)%nat -> is_finite (mfun m i j) = true) ->
  let n := dimn d in let M := fun i j => B2R (mfun m i j) in
  (forall i j, (i < n)%nat -> (j < n)%nat -> is_finite (mfun A i j) = true) /\
  (forall l, (l < n)%nat -> (l <= pos ix l < n)%nat) /\
  exists e, (forall l, e l = 0 \/ e l = B2R lit_1em40 /\ mfun m l l = lit_1em40) /\
  forall i j, (i < n)%nat -> (j < n)%nat ->
    Rabs (mmul n (Lpart M) (Upart M) i j - (exchange n (pos ix) (fun a b => B2R (mfun A a b)) i j + (if Nat.eqb i j then e i else 0)))
    <= ((1 + uro) ^ n - 1) * mmul n (fun a b => Rabs (Lpart M a b)) (fun a b => Rabs (Upart M a b)) i j
       + INR n * (1 + uro) ^ n * eta * (1 + Rabs (M j j)).
Proof.
  intros d A m det ix HT E F n M. destruct (d_lu_any d A) as (dt & Ed). rewrite Ed in E. unfold lu_factor in E.
  assert (P : (0 < dimn d)%nat) by (destruct d; cbn; lia).
  destruct (f_scaling (dimn d) A (amake (dimn d) zero) P) as [(_ & Es)|(_ & vv & Es)]; rewrite Es in E; cbn [bind] in E; [discriminate| ].
  destruct (f_loop (dimn d) A vv) as (m' & vv' & s & ix' & El & H). rewrite El in E. cbn [bind] in E. injection E as -> _ ->.
  destruct (H HT) as [I1 I2 I3]. split; [exact (I2 F)|split; [exact I1| ]]. destruct (I3 F) as (e & H1 & H2). exists e. split.
  - intros l. destruct (H1 l) as [?|(_ & ? & ?)]; auto.
  - intros i j Hi Hj. specialize (H2 i j Hi Hj). unfold lu_err in H2. rewrite !rem_end in H2 by exact Hi.
    rewrite Rabs_R0, !Rplus_0_r in H2. unfold lu_weight in H2. destruct (Nat.ltb_spec j (dimn d)) in H2; [ |unfold n in Hj; lia].
    rewrite Rabs_minus_sym. exact H2.
Qed.
End F.

(** ** cases *)
#[local] Instance prec53 : Prec_gt_0 53 := eq_refl.
#[local] Instance emax1024 : Prec_lt_emax 53 1024 := eq_refl.
#[local] Notation f64 := (binary_float 53 1024).

Lemma le_by_eq (a b c d : R) : a <= b -> a = c -> b = d -> c <= d.
Proof. intros H -> ->. exact H. Qed.

(** [[1 2] [3 4]]: the rows are exchanged and the multiplier 1/3 is rounded *)
Example C86_case : forall O : FOracle f64, B2R lit_1em40 <> 0 ->
  let x := [| [| fofZ 1; fofZ 2 |]; [| fofZ 3; fofZ 4 |] |] : M22 f64 in
  exists m det ix, d_lu D2 x = Ok (m, det, ix) /\ pos ix 0 = 1%nat /\
  Rabs (B2R (mfun m 1 0) * 3 - 1) <=
    ((1 + uro (prec := 53)) ^ 2 - 1) * (Rabs (B2R (mfun m 1 0)) * 3) + 2 * (1 + uro (prec := 53)) ^ 2 * eta (prec := 53) (emax := 1024) * 4.
Proof.
  intros O HT x.
  set (sf := fun i j => match d_lu D2 x with Ok (a, _, _) => B2SF (mfun a i j) | Panic => SpecFloat.S754_nan end).
  set (px := fun i => match d_lu D2 x with Ok (_, _, b) => pos b i | Panic => 7%nat end).
  assert (S00 : sf 0%nat 0%nat = B2SF (fofZ 3 : f64)) by (vm_compute; reflexivity).
  assert (S01 : sf 0%nat 1%nat = B2SF (fofZ 4 : f64)) by (vm_compute; reflexivity).
  assert (S10 : is_finite_SF (sf 1%nat 0%nat) = true) by (vm_compute; reflexivity).
  assert (S11 : is_finite_SF (sf 1%nat 1%nat) = true) by (vm_compute; reflexivity).
  assert (P0 : px 0%nat = 1%nat) by (vm_compute; reflexivity).
  assert (P1 : px 1%nat = 1%nat) by (vm_compute; reflexivity).
  unfold sf, px in *. clear sf px.
  destruct (d_lu D2 x) as [[[m det] ix]| ] eqn:E; [ |discriminate].
  exists m, det, ix. split; [reflexivity|split; [exact P0| ]].
  assert (E00 : mfun m 0 0 = fofZ 3) by (apply B2SF_inj; exact S00).
  assert (E01 : mfun m 0 1 = fofZ 4) by (apply B2SF_inj; exact S01).
  assert (F : forall i j, (i < 2)%nat -> (j < 2)%nat -> is_finite (mfun m i j) = true).
  { intros i j Hi Hj. rewrite <- is_finite_SF_B2SF.
    destruct i as [ |[ |i]]; [ | |lia]; (destruct j as [ |[ |j]]; [ | |lia]); rewrite ?S00, ?S01; try assumption; vm_compute; reflexivity. }
  destruct (c86_lu_error D2 x m det ix HT E F) as (_ & _ & e & _ & H). specialize (H 1%nat 0%nat ltac:(cbn; lia) ltac:(cbn; lia)).
  assert (U0 : B2R (mfun m 0 0) = 3).
  { rewrite E00. apply int_val. vm_compute. discriminate. }
  assert (A0 : B2R (mfun x 0 0) = 1) by (apply int_val; vm_compute; discriminate).
  clear E S00 S01 S10 S11 E00 E01 F. cbv beta zeta in H. change (dimn D2) with 2%nat in *. cbn [exchange Nat.eqb] in H. rewrite P0, P1 in H.
  unfold mmul, Lpart, Upart, swap_row in H. cbn [sumn add mul zero R_Num Nat.eqb Nat.ltb Nat.leb INR] in H.
  rewrite U0, A0 in H. refine (le_by_eq _ _ _ _ H _ _).
  - f_equal. ring.
  - rewrite (Rabs_pos_eq 3) by lra. rewrite Rabs_R0. ring.
Qed.

(** a first row of a NaN and -0 panics, zeros elsewhere and infinities do not *)
Example C86_panic_case : forall O : FOracle f64,
  d_lu D2 ([| [| B754_nan; B754_zero true |]; [| fofZ 3; fofZ 4 |] |] : M22 f64) = Panic /\
  d_lu D2 ([| [| B754_nan; B754_infinity true |]; [| fofZ 0; fofZ 0 |] |] : M22 f64) <> Panic.
Proof.
  intros O. split.
  - apply (c86_lu_panic_iff D2). intros [ |[ |j]] Hj; [left; reflexivity|right; reflexivity|cbn in Hj; lia].
  - intros H. pose proof (proj1 (c86_lu_panic_iff D2 _) H 1%nat ltac:(cbn; lia)) as [X|X]; vm_compute in X; discriminate.
Qed.
