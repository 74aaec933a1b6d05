(** * ProofsLU: C10, C11 (LU factorization in exact real arithmetic)

    [Lpart]/[Upart] (LUFacts.v) read the unit lower and the upper triangle off
    the packed result, [exchange n p A] applies the row exchanges
    (0, p 0), (1, p 1), ... to [A] in this order, [pos ix] is the returned
    index vector. *)

From Coq Require Import List Arith Lia Bool Reals Lra.
From Verif Require Import Base Scalar Vec Mat2 Mat3 Mat4 Mat5 Mat6 Slices MatLoops MatOps
  RingDet Spec LoopFacts Entries DetEntries InstR RFacts LUFacts.
Import ListNotations.
Local Open Scope R_scope.

Lemma d_lu_eq {K : RConsts} d (A : mat R (dimn d)) :
  d_lu d A = bind (lu_factor A) (fun r => let '(m, s, ix) := r in
    Ok (m, s * prodn (dimn d) (fun i => mfun m i i), ix)).
Proof.
  destruct d; cbn [d_lu dimn] in *;
    [unfold m22_lu|unfold m33_lu|unfold m44_lu|unfold m55_lu|unfold m66_lu];
    destruct (lu_factor A) as [[[m s] ix]| ]; cbn [bind]; try reflexivity; cbv zeta;
    match goal with |- Ok (_, ?x, _) = Ok (_, ?y, _) =>
      replace y with x; [reflexivity|lazy -[Rplus Rmult Ropp Rminus IZR]; ring] end.
Qed.

Section Props.
Context {K : RConsts} (OK : RConstsOk K).

Lemma dimn_pos d : (0 < dimn d)%nat.
Proof. destruct d; cbn; lia. Qed.

Lemma regular_row0 d (A : mat R (dimn d)) : ldet (dimn d) (mfun A) <> 0 -> ~ row0_zero A.
Proof.
  intros Hd Hz. apply Hd. pose proof (dimn_pos d) as Hn.
  destruct (dimn d) as [ |n]; [lia| ]. cbn [ldet]. apply (sumn_zero R_ring).
  intros j Hj. rewrite Hz by assumption. cbn. ring.
Qed.

Lemma d_lu_inv d (A : mat R (dimn d)) : ~ row0_zero A ->
  exists m s ix e, d_lu d A = Ok (m, s * prodn (dimn d) (fun i => mfun m i i), ix)
    /\ lu_inv (dimn d) (dimn d) (mfun A) (mfun m) s (pos ix) e.
Proof.
  intros Hz. destruct (lu_factor_inv OK (dimn d) A (dimn_pos d) Hz) as (m & s & ix & e & E & I).
  exists m, s, ix, e. split; [ |exact I]. rewrite d_lu_eq, E. reflexivity.
Qed.

(** For every invertible matrix [lu()] returns and [L U = P A]. *)
Lemma c10_lu_reconstructs : forall d (A : mat R (dimn d)),
  ldet (dimn d) (mfun A) <> 0 ->
  exists m det ix, d_lu d A = Ok (m, det, ix)
    /\ (forall k, (k < dimn d)%nat -> (k <= pos ix k < dimn d)%nat)
    /\ (forall k, (k < dimn d)%nat -> Upart (mfun m) k k <> 0)
    /\ forall i j, (i < dimn d)%nat -> (j < dimn d)%nat ->
         mmul (dimn d) (Lpart (mfun m)) (Upart (mfun m)) i j
         = exchange (dimn d) (pos ix) (mfun A) i j.
Proof.
  intros d A Hd. destruct (d_lu_inv d A (regular_row0 d A Hd)) as (m & s & ix & e & E & I).
  exists m, (s * prodn (dimn d) (fun i => mfun m i i)), ix. split; [exact E| ]. split; [ |split].
  - apply (inv_pos _ _ _ _ _ _ _ I).
  - intros k Hk. unfold Upart. rewrite Nat.leb_refl. now apply (inv_diag _ _ _ _ _ _ _ I).
  - intros i j Hi Hj. rewrite (lu_inv_product _ _ _ _ _ _ I) by assumption.
    unfold diag. rewrite (inv_regular _ _ _ _ _ _ _ I Hd). destruct (Nat.eqb i j); ring.
Qed.

(** For every other matrix with a non-zero first row the factors reconstruct
    [P A] except that some diagonal entries are off by the literal 1e-40. *)
Lemma c10_lu_perturbed : forall d (A : mat R (dimn d)),
  (exists j, (j < dimn d)%nat /\ mfun A 0 j <> 0) ->
  exists m det ix e, d_lu d A = Ok (m, det, ix)
    /\ (forall k, (k < dimn d)%nat -> (k <= pos ix k < dimn d)%nat)
    /\ (forall k, e k = 0 \/ e k = r_1em40)
    /\ forall i j, (i < dimn d)%nat -> (j < dimn d)%nat ->
         mmul (dimn d) (Lpart (mfun m)) (Upart (mfun m)) i j
         = exchange (dimn d) (pos ix) (mfun A) i j + (if Nat.eqb i j then e i else 0).
Proof.
  intros d A (j & Hj & Hne).
  destruct (d_lu_inv d A) as (m & s & ix & e & E & I).
  { intros Hz. apply Hne. now apply Hz. }
  exists m, (s * prodn (dimn d) (fun i => mfun m i i)), ix, e. split; [exact E| ]. split; [ |split].
  - apply (inv_pos _ _ _ _ _ _ _ I).
  - intros k. destruct (inv_pert _ _ _ _ _ _ _ I k) as [H|[_ H]]; auto.
  - intros a b Ha Hb. now rewrite (lu_inv_product _ _ _ _ _ _ I).
Qed.

(** ** C11 *)

(** the holding part: on invertible matrices the reported number is the
    determinant *)
Lemma c11_lu_det_partial : forall d (A : mat R (dimn d)),
  ldet (dimn d) (mfun A) <> 0 ->
  exists m ix, d_lu d A = Ok (m, ldet (dimn d) (mfun A), ix).
Proof.
  intros d A Hd. destruct (d_lu_inv d A (regular_row0 d A Hd)) as (m & s & ix & e & E & I).
  exists m, ix. rewrite E. now rewrite (lu_inv_det _ _ _ _ _ _ I Hd).
Qed.

(** the exact panic condition *)
Lemma c11_lu_panic_iff : forall d (A : mat R (dimn d)),
  d_lu d A = Panic <-> forall j, (j < dimn d)%nat -> mfun A 0 j = 0.
Proof.
  intros d A. split.
  - intros E j Hj. destruct (Req_dec (mfun A 0 j) 0) as [ |Hne]; [assumption| ]. exfalso.
    destruct (d_lu_inv d A) as (m & s & ix & e & E' & _).
    + intros Hz. apply Hne. now apply Hz.
    + rewrite E in E'. discriminate.
  - intros Hz. rewrite d_lu_eq. now rewrite (lu_factor_panic _ A (dimn_pos d) Hz).
Qed.

(** "panics only on the zero matrix" is false: for every size there is a
    non-zero matrix on which it panics *)
Lemma c11_lu_panic_refuted : forall d, exists A : mat R (dimn d),
  A <> d_zeros d /\ d_lu d A = Panic.
Proof.
  intros d.
  exists (match d return mat R (dimn d) with
    | D2 => [| [| 0; 0 |]; [| 0; 1 |] |]
    | D3 => [| [| 0; 0; 0 |]; [| 0; 1; 0 |]; [| 0; 0; 1 |] |]
    | D4 => [| [| 0; 0; 0; 0 |]; [| 0; 1; 0; 0 |]; [| 0; 0; 1; 0 |]; [| 0; 0; 0; 1 |] |]
    | D5 => [| [| 0; 0; 0; 0; 0 |]; [| 0; 1; 0; 0; 0 |]; [| 0; 0; 1; 0; 0 |]; [| 0; 0; 0; 1; 0 |];
               [| 0; 0; 0; 0; 1 |] |]
    | D6 => [| [| 0; 0; 0; 0; 0; 0 |]; [| 0; 1; 0; 0; 0; 0 |]; [| 0; 0; 1; 0; 0; 0 |];
               [| 0; 0; 0; 1; 0; 0 |]; [| 0; 0; 0; 0; 1; 0 |]; [| 0; 0; 0; 0; 0; 1 |] |]
    end).
  split.
  - intros E. apply (f_equal (fun M => mfun M 1 1)) in E. revert E.
    destruct d; lazy -[IZR]; apply R1_neq_R0.
  - apply c11_lu_panic_iff. intros j Hj. destruct d; cbn [dimn] in Hj; all_lt j Hj; reflexivity.
Qed.

(** "the second component equals det()" is false of every singular matrix with
    a non-zero first row: a non-zero number is reported *)
Lemma c11_lu_singular_refuted : forall d (A : mat R (dimn d)),
  ldet (dimn d) (mfun A) = 0 -> (exists j, (j < dimn d)%nat /\ mfun A 0 j <> 0) ->
  exists m det ix, d_lu d A = Ok (m, det, ix) /\ det <> ldet (dimn d) (mfun A).
Proof.
  intros d A Hd (j & Hj & Hne).
  destruct (d_lu_inv d A) as (m & s & ix & e & E & I).
  { intros Hz. apply Hne. now apply Hz. }
  exists m, (s * prodn (dimn d) (fun i => mfun m i i)), ix. split; [exact E| ].
  rewrite Hd. apply (lu_inv_det_nonzero _ _ _ _ _ _ I).
Qed.

Lemma c11_lu_det_refuted : exists (A : mat R (dimn D2)) m det ix,
  d_lu D2 A = Ok (m, det, ix) /\ det <> d_det D2 A.
Proof.
  destruct (c11_lu_singular_refuted D2 [| [| 1; 2 |]; [| 2; 4 |] |]) as (m & det & ix & E & H).
  - lazy -[Rplus Rmult Ropp Rminus IZR]. ring.
  - exists 0%nat. split; [cbn; lia| ]. lazy -[IZR]. apply R1_neq_R0.
  - exists [| [| 1; 2 |]; [| 2; 4 |] |], m, det, ix. split; [exact E| ].
    rewrite (d_det_ldet R_ring). exact H.
Qed.

End Props.

(** ** Concrete case: the factors are determined, with a row exchange *)
Example C10_example :
  let A : mat R (dimn D2) := [| [| 1; 2 |]; [| 3; 4 |] |] in
  ldet 2 (mfun A) <> 0
  /\ mmul 2 (Lpart (mfun [| [| 3; 4 |]; [| 1/3; 2/3 |] |])) (Upart (mfun [| [| 3; 4 |]; [| 1/3; 2/3 |] |])) 1 1
     = exchange 2 (pos [| 1%nat; 1%nat |]) (mfun A) 1 1.
Proof. split; lazy -[Rplus Rmult Ropp Rminus IZR Rdiv]; lra. Qed.
