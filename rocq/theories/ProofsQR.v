(** * ProofsQR: C12 (QR factorization in exact real arithmetic) *)

From Coq Require Import List Arith Lia Bool Reals Lra.
From Verif Require Import Base Scalar Vec Mat2 Mat3 Mat4 Mat5 Mat6 Slices MatLoops MatOps
  RingDet Spec LoopFacts Entries DetEntries ProofsLoops InstR RFacts QRFacts.
Import ListNotations.
Local Open Scope R_scope.

Lemma eta2 {U} (q : arr U 2) : [| q.[0]; q.[1] |] = q.
Proof. destruct q as (?&?&[]). reflexivity. Qed.
Lemma eta3 {U} (q : arr U 3) : [| q.[0]; q.[1]; q.[2] |] = q.
Proof. destruct q as (?&?&?&[]). reflexivity. Qed.
Lemma eta4 {U} (q : arr U 4) : [| q.[0]; q.[1]; q.[2]; q.[3] |] = q.
Proof. destruct q as (?&?&?&?&[]). reflexivity. Qed.
Lemma eta5 {U} (q : arr U 5) : [| q.[0]; q.[1]; q.[2]; q.[3]; q.[4] |] = q.
Proof. destruct q as (?&?&?&?&?&[]). reflexivity. Qed.
Lemma eta6 {U} (q : arr U 6) : [| q.[0]; q.[1]; q.[2]; q.[3]; q.[4]; q.[5] |] = q.
Proof. destruct q as (?&?&?&?&?&?&[]). reflexivity. Qed.

Lemma d_qr_eq {T} {nT : Num T} {sT : Signed T} {oT : POrd T} {fT : Float T} d (A : mat T (dimn d)) :
  d_qr d A = if negb (nearly_zero (d_det d A)) then
    q <- qr_basis (d_vsub_assign d) (d_vscale d) (d_transpose d A) (d_transpose d (d_zeros d)) ;;
    Ok (Some (d_transpose d q, d_mul d (d_transpose d (d_transpose d q)) A))
  else Ok None.
Proof.
  pose proof (fun m => get_cols_eq d (m : mat T (dimn d))) as GC.
  pose proof (fun m => new_from_vecs_eq d (m : mat T (dimn d))) as NV.
  destruct d; cbn [d_get_cols d_new_from_vecs dimn] in GC, NV;
  cbn [d_qr]; [unfold m22_qr|unfold m33_qr|unfold m44_qr|unfold m55_qr|unfold m66_qr];
  rewrite !GC; cbn [d_det d_vsub_assign d_vscale d_transpose d_zeros d_mul];
  match goal with |- (if ?b then _ else _) = _ => destruct b end; try reflexivity;
  match goal with |- bind (Ok ?c) ?f = _ => change (bind (Ok c) f) with (f c) end; cbv beta;
  match goal with |- bind (Ok ?c) ?f = _ => change (bind (Ok c) f) with (f c) end; cbv beta;
  match goal with |- bind ?q _ = _ => destruct q as [q| ] end; try reflexivity;
  match goal with |- bind (Ok ?c) ?f = _ => change (bind (Ok c) f) with (f c) end; cbv beta;
  cbv zeta; rewrite NV; first [rewrite eta2|rewrite eta3|rewrite eta4|rewrite eta5|rewrite eta6];
  match goal with |- bind (Ok ?c) ?f = _ => change (bind (Ok c) f) with (f c) end; cbv beta;
  reflexivity.
Qed.

Section Props.
Context {K : RConsts} (OK : RConstsOk K).

Lemma vsub_assign_entry d (v w : arr R (dimn d)) i : (i < dimn d)%nat ->
  vfun (d_vsub_assign d v w) i = vfun v i - vfun w i.
Proof. intros Hi. destruct d; cbn [dimn] in *; all_lt i Hi; reflexivity. Qed.

(** The case in which [qr()] computes. *)
Lemma c12_qr : forall d (A : mat R (dimn d)),
  r_eps <= Rabs (ldet (dimn d) (mfun A)) ->
  exists q r, d_qr d A = Ok (Some (q, r))
    /\ d_mul d q r = A
    /\ d_mul d (d_transpose d q) q = d_identity d
    /\ d_mul d q (d_transpose d q) = d_identity d
    /\ (forall i j, (i < dimn d)%nat -> (j < i)%nat -> mfun r i j = 0)
    /\ (forall i, (i < dimn d)%nat -> 0 < mfun r i i).
Proof.
  intros d A L.
  assert (Hdet : ldet (dimn d) (mfun A) <> 0).
  { intros Z. rewrite Z, Rabs_R0 in L. pose proof (eps_pos K OK). lra. }
  destruct (qr_basis_spec (n := dimn d) (d_vsub_assign d) (d_vscale d)
    (vsub_assign_entry d) (d_vscale_entry d) (d_transpose d A) (d_transpose d (d_zeros d)))
    as (q & E & I).
  { rewrite (ldet_ext _ _ (mtrans (mfun A))).
    - rewrite (ldet_trans R_ring). exact Hdet.
    - intros i j Hi Hj. now rewrite d_transpose_entry. }
  assert (Z : nearly_zero (d_det d A) = false).
  { apply (nearly_zero_false OK). rewrite (d_det_ldet R_ring). exact L. }
  exists (d_transpose d q), (d_mul d (d_transpose d (d_transpose d q)) A).
  split; [rewrite d_qr_eq, Z, E; reflexivity| ].
  set (Q := mfun q) in *. set (C := mfun (d_transpose d A)) in *.
  assert (CA : forall i j, (i < (dimn d))%nat -> (j < (dimn d))%nat -> mfun A i j = C j i).
  { intros i j Hi Hj. unfold C. now rewrite d_transpose_entry. }
  assert (QM : forall i j, (i < (dimn d))%nat -> (j < (dimn d))%nat -> mfun (d_transpose d q) i j = Q j i).
  { intros i j Hi Hj. now rewrite d_transpose_entry. }
  assert (QTM : forall i j, (i < (dimn d))%nat -> (j < (dimn d))%nat ->
     mfun (d_transpose d (d_transpose d q)) i j = Q i j).
  { intros i j Hi Hj. rewrite d_transpose_entry by assumption. now apply QM. }
  (* columns of q are orthonormal *)
  assert (O : forall i j, (i < (dimn d))%nat -> (j < (dimn d))%nat ->
     mmul (dimn d) (mfun (d_transpose d (d_transpose d q))) (mfun (d_transpose d q)) i j = delta i j).
  { intros i j Hi Hj. unfold delta. change (@one R R_Num) with 1. change (@zero R R_Num) with 0.
    rewrite <- (gs_ortho _ _ _ I) by assumption.
    apply sumn_ext. intros k Hk. rewrite QTM, QM by assumption. reflexivity. }
  assert (N : exists k, (dimn d) = S k) by (destruct d; cbn; eauto).
  assert (O' : forall i j, (i < (dimn d))%nat -> (j < (dimn d))%nat ->
     mmul (dimn d) (mfun (d_transpose d q)) (mfun (d_transpose d (d_transpose d q))) i j = delta i j).
  { destruct N as [k N]. revert O. generalize (mfun (d_transpose d (d_transpose d q))).
    generalize (mfun (d_transpose d q)). rewrite N. intros f g. apply (left_inverse_right R_ring). }
  assert (RE : forall i j, (i < (dimn d))%nat -> (j < (dimn d))%nat ->
     mfun (d_mul d (d_transpose d (d_transpose d q)) A) i j = ip (dimn d) (C j) (Q i)).
  { intros i j Hi Hj. rewrite (d_mul_entry R_ring) by assumption. apply sumn_ext. intros k Hk.
    rewrite QTM, CA by assumption. cbn. ring. }
  split; [ |split; [ |split; [ |split]]].
  - apply mfun_ext. intros i j Hi Hj. rewrite (d_mul_entry R_ring) by assumption.
    transitivity (mmul (dimn d) (mfun (d_transpose d q))
      (mmul (dimn d) (mfun (d_transpose d (d_transpose d q))) (mfun A)) i j).
    + apply mmul_ext; [reflexivity| ]. intros k Hk. now rewrite (d_mul_entry R_ring).
    + rewrite <- (mmul_assoc R_ring).
      rewrite <- (mmul_id_l R_ring (dimn d) (mfun A) i j Hi). apply mmul_ext; [ |reflexivity].
      intros k Hk. now apply O'.
  - apply mfun_ext. intros i j Hi Hj. rewrite (d_mul_entry R_ring), d_identity_entry by assumption.
    now apply O.
  - apply mfun_ext. intros i j Hi Hj. rewrite (d_mul_entry R_ring), d_identity_entry by assumption.
    now apply O'.
  - intros i j Hi Hj. rewrite RE by (assumption || (lia)).
    rewrite (ip_ext (dimn d) (C j) (fun a => sumn (S j) (fun k => ip (dimn d) (C j) (Q k) * Q k a)) (Q i) (Q i)).
    + rewrite ip_sum_l. apply (sumn_zero R_ring). intros k Hk.
      rewrite (gs_ortho _ _ _ I) by lia.
      destruct (Nat.eqb_spec k i); [lia| ]. cbn. ring.
    + intros a Ha. apply (gs_span _ _ _ I); lia.
    + reflexivity.
  - intros i Hi. rewrite RE by assumption. apply (gs_diag _ _ _ I). exact Hi.
Qed.

(** [None] exactly below the threshold; never a panic. *)
Lemma c12_qr_none_iff : forall d (A : mat R (dimn d)),
  d_qr d A = Ok None <-> Rabs (ldet (dimn d) (mfun A)) < r_eps.
Proof.
  intros d A. destruct (Rlt_le_dec (Rabs (ldet (dimn d) (mfun A))) r_eps) as [L|L].
  - split; [auto|intros _]. rewrite d_qr_eq.
    replace (nearly_zero (d_det d A)) with true; [reflexivity| ].
    symmetry. apply (nearly_zero_iff OK). now rewrite (d_det_ldet R_ring).
  - destruct (c12_qr d A L) as (q & r & E & _). rewrite E. split; [discriminate|lra].
Qed.

Lemma c12_qr_total : forall d (A : mat R (dimn d)), d_qr d A <> Panic.
Proof.
  intros d A. destruct (Rlt_le_dec (Rabs (ldet (dimn d) (mfun A))) r_eps) as [L|L].
  - apply c12_qr_none_iff in L. rewrite L. discriminate.
  - destruct (c12_qr d A L) as (q & r & E & _). rewrite E. discriminate.
Qed.

(** The factors with these properties are unique, so [qr()] returns them. *)
Lemma sumn_upto n i (f : nat -> R) : (i < n)%nat -> (forall k, (k < n)%nat -> (i < k)%nat -> f k = 0) ->
  sumn n f = sumn i f + f i.
Proof.
  induction n as [ |n IH]; intros Hi Z; [lia| ]. cbn [sumn].
  destruct (Nat.eq_dec i n) as [->|N]; [reflexivity| ].
  rewrite IH, (Z n) by (try lia; intros; apply Z; lia). cbn [add R_Num]. ring.
Qed.

Lemma cholesky_unique n (R1 R2 : nat -> nat -> R) :
  (forall i j, (i < n)%nat -> (j < i)%nat -> R1 i j = 0) -> (forall i j, (i < n)%nat -> (j < i)%nat -> R2 i j = 0) ->
  (forall i, (i < n)%nat -> 0 < R1 i i) -> (forall i, (i < n)%nat -> 0 < R2 i i) ->
  (forall i j, (i < n)%nat -> (j < n)%nat -> mmul n (mtrans R1) R1 i j = mmul n (mtrans R2) R2 i j) ->
  forall i j, (i < n)%nat -> (j < n)%nat -> R1 i j = R2 i j.
Proof.
  intros U1 U2 P1 P2 G i. induction i as [i IH] using lt_wf_ind. intros j Hi Hj.
  assert (S : forall j, (i <= j)%nat -> (j < n)%nat -> R1 i i * R1 i j = R2 i i * R2 i j).
  { clear j Hj. intros j Hij Hj. specialize (G i j Hi Hj). unfold mmul, mtrans in G.
    rewrite !(sumn_upto n i) in G by
      (try assumption; intros k Hk Hik; first [rewrite U1 by lia|rewrite U2 by lia]; cbn [mul R_Num]; ring).
    rewrite (sumn_ext i _ (fun k => R2 k i * R2 k j)) in G.
    2:{ intros k Hk. rewrite !IH by lia. reflexivity. }
    cbn [add mul R_Num] in G. lra. }
  assert (D : R1 i i = R2 i i).
  { pose proof (S i (le_n i) Hi). pose proof (P1 i Hi). pose proof (P2 i Hi). nra. }
  destruct (Nat.lt_ge_cases j i) as [L|L].
  - rewrite U1, U2 by assumption. reflexivity.
  - pose proof (S j L Hj) as E. rewrite D in E. pose proof (P2 i Hi). nra.
Qed.

Lemma upper_cancel n (Q1 Q2 R1 : nat -> nat -> R) :
  (forall i j, (i < n)%nat -> (j < i)%nat -> R1 i j = 0) -> (forall i, (i < n)%nat -> 0 < R1 i i) ->
  (forall i j, (i < n)%nat -> (j < n)%nat -> mmul n Q1 R1 i j = mmul n Q2 R1 i j) ->
  forall i j, (i < n)%nat -> (j < n)%nat -> Q1 i j = Q2 i j.
Proof.
  intros U P G i j. revert i. induction j as [j IH] using lt_wf_ind. intros i Hi Hj.
  specialize (G i j Hi Hj). unfold mmul in G.
  rewrite !(sumn_upto n j) in G by (try assumption; intros k Hk Hik; rewrite U by lia; cbn [mul R_Num]; ring).
  rewrite (sumn_ext j _ (fun k => Q2 i k * R1 k j)) in G.
  2:{ intros k Hk. rewrite IH by lia. reflexivity. }
  cbn [add mul R_Num] in G. pose proof (P j Hj). nra.
Qed.

Lemma c12_qr_unique : forall d (A q r : mat R (dimn d)),
  r_eps <= Rabs (ldet (dimn d) (mfun A)) ->
  d_mul d q r = A -> d_mul d (d_transpose d q) q = d_identity d ->
  (forall i j, (i < dimn d)%nat -> (j < i)%nat -> mfun r i j = 0) ->
  (forall i, (i < dimn d)%nat -> 0 < mfun r i i) ->
  d_qr d A = Ok (Some (q, r)).
Proof.
  intros d A q r L E O U P. destruct (c12_qr d A L) as (q' & r' & H & E' & O' & _ & U' & P').
  assert (F : forall q r : mat R (dimn d), d_mul d q r = A -> d_mul d (d_transpose d q) q = d_identity d ->
    forall i j, (i < dimn d)%nat -> (j < dimn d)%nat ->
    mmul (dimn d) (mtrans (mfun r)) (mfun r) i j = mmul (dimn d) (mtrans (mfun A)) (mfun A) i j).
  { clear. intros q r E O i j Hi Hj. symmetry.
    transitivity (mmul (dimn d) (mtrans (mmul (dimn d) (mfun q) (mfun r))) (mmul (dimn d) (mfun q) (mfun r)) i j).
    { rewrite <- E. apply mmul_ext; intros k Hk; unfold mtrans; apply (d_mul_entry R_ring); assumption. }
    transitivity (mmul (dimn d) (mmul (dimn d) (mtrans (mfun r)) (mtrans (mfun q))) (mmul (dimn d) (mfun q) (mfun r)) i j).
    { apply mmul_ext; [ |reflexivity]. intros k Hk. apply (mtrans_mmul R_ring). }
    rewrite (mmul_assoc R_ring). apply mmul_ext; [reflexivity|intros k Hk].
    rewrite <- (mmul_assoc R_ring). rewrite <- (mmul_id_l R_ring (dimn d) (mfun r) k j) by assumption.
    apply mmul_ext; [ |reflexivity]. intros l Hl.
    rewrite <- (d_identity_entry d k l), <- O, (d_mul_entry R_ring) by assumption.
    apply mmul_ext; [ |reflexivity]. intros m Hm. now rewrite d_transpose_entry. }
  assert (R : r' = r).
  { apply mfun_ext. apply cholesky_unique; try assumption. intros i j Hi Hj.
    rewrite (F q r), (F q' r') by assumption. reflexivity. }
  subst r'. rewrite H. f_equal. f_equal. f_equal.
  apply mfun_ext. apply (upper_cancel (dimn d) _ _ (mfun r)); try assumption.
  intros i j Hi Hj. rewrite <- !(d_mul_entry R_ring) by assumption. now rewrite E, E'.
Qed.

End Props.

(** ** Concrete case: a matrix that meets the hypothesis of [c12_qr] *)
Example C12_example :
  @r_eps f64_consts <= Rabs (ldet 3 (mfun ([| [| 1; 2; 3 |]; [| 0; 1; 4 |]; [| 5; 6; 0 |] |] : M33 R))).
Proof.
  pose proof (eps_small _ f64_consts_ok).
  match goal with |- _ <= Rabs ?t => replace t with 1 end.
  - rewrite Rabs_R1. lra.
  - lazy -[Rplus Rmult Ropp Rminus IZR]. ring.
Qed.

(** The factorization of a matrix, by its uniqueness. *)
Example C12_unique_case :
  d_qr (fT := R_Float f64_consts) D3 [| [| 1; 0; 0 |]; [| 0; 4; 3 |]; [| 0; 3; 4 |] |]
  = Ok (Some ([| [| 1; 0; 0 |]; [| 0; 4 / 5; - (3 / 5) |]; [| 0; 3 / 5; 4 / 5 |] |],
              [| [| 1; 0; 0 |]; [| 0; 5; 24 / 5 |]; [| 0; 0; 7 / 5 |] |])).
Proof.
  apply (c12_qr_unique f64_consts_ok D3).
  - pose proof (eps_small _ f64_consts_ok).
    match goal with |- _ <= Rabs ?t => replace t with 7 end.
    + rewrite Rabs_right; lra.
    + lazy -[Rplus Rmult Ropp Rminus IZR]. ring.
  - lazy -[Rplus Rmult Ropp Rminus Rdiv Rinv IZR].
    repeat match goal with |- (_, _) = (_, _) => refine (f_equal2 pair _ _) end; try reflexivity; field.
  - lazy -[Rplus Rmult Ropp Rminus Rdiv Rinv IZR].
    repeat match goal with |- (_, _) = (_, _) => refine (f_equal2 pair _ _) end; try reflexivity; field.
  - intros i j Hi Hj. cbn [dimn] in Hi. all_lt i Hi; try lia; all_lt j Hj; reflexivity.
  - intros i Hi. cbn [dimn] in Hi. all_lt i Hi; lazy -[Rlt Rdiv Rinv IZR]; lra.
Qed.
