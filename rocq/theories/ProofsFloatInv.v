(** * ProofsFloatInv: the accuracy of [inverse()] on floats (C82) *)

From Coq Require Import List Arith ZArith Reals Bool Lra Lia.
From Flocq Require Import Core Relative IEEE754.BinarySingleNaN.
From Verif Require Import Base Scalar Vec Mat2 Mat3 Mat4 Mat5 Mat6 Slices MatLoops MatOps Quat RingDet Spec LoopFacts Entries DetEntries ProofsLoops RelFacts InstZ InstR RFacts InvFacts ProofsRing ProofsQuat InstF FloatFacts ProofsFloat ProofsPanic ProofsFloat2 ProofsFloatErr ProofsFloatNorm.
Local Open Scope R_scope.

(** ** the entries of [inverse()], for any number type *)
Section Any.
Context {T : Type} {nT : Num T} {sT : Signed T} {oT : POrd T} {fT : Float T}.

(** entry [(i, j)] of the adjugate, as the code computes it *)
Definition adj_code (d : dim) : mat T (dimn d) -> nat -> nat -> T :=
  match d with
  | D2 => fun self => mfun ([| [| self.[1].[1]; - self.[0].[1] |]; [| - self.[1].[0]; self.[0].[0] |] |] : M22 T)
  | D3 => fun self => mfun ([|
      [| self.[1].[1] * self.[2].[2] - self.[2].[1] * self.[1].[2];
         self.[0].[2] * self.[2].[1] - self.[0].[1] * self.[2].[2];
         self.[0].[1] * self.[1].[2] - self.[0].[2] * self.[1].[1] |];
      [| self.[1].[2] * self.[2].[0] - self.[1].[0] * self.[2].[2];
         self.[0].[0] * self.[2].[2] - self.[0].[2] * self.[2].[0];
         self.[1].[0] * self.[0].[2] - self.[0].[0] * self.[1].[2] |];
      [| self.[1].[0] * self.[2].[1] - self.[2].[0] * self.[1].[1];
         self.[2].[0] * self.[0].[1] - self.[0].[0] * self.[2].[1];
         self.[0].[0] * self.[1].[1] - self.[1].[0] * self.[0].[1] |] |] : M33 T)
  | D4 => fun x i j => match m44_get_submatrix x (j, i) with
      | Ok s => if Nat.eqb ((j + i) mod 2) 0 then m33_det s else - (m33_det s) | Panic => zero end
  | D5 => fun x i j => match m55_get_submatrix x (j, i) with
      | Ok s => (if Nat.eqb ((j + i) mod 2) 0 then one else - one) * m44_det s | Panic => zero end
  | D6 => fun x i j => match m66_get_submatrix x (j, i) with
      | Ok s => (if Nat.eqb ((j + i) mod 2) 0 then one else - one) * m55_det s | Panic => zero end
  end%sc.

(** M55 divides by the determinant, the others multiply by its reciprocal *)
Definition inv_entry (d : dim) (c det : T) : T :=
  match d with D5 => div c det | _ => mul c (recip det) end.

Lemma adj_mset n (m : mat T n) i j x : (i < n)%nat -> (j < n)%nat -> exists m', mset m i j x = Ok m'.
Proof. apply mset_ok. Qed.

Lemma inverse_entries d (x : mat T (dimn d)) B : d_inverse d x = Ok (Some B) ->
  forall i j, (i < dimn d)%nat -> (j < dimn d)%nat -> mfun B i j = inv_entry d (adj_code d x i j) (d_det d x).
Proof.
  destruct d; cbn [d_inverse d_det dimn inv_entry].
  - unfold m22_inverse. generalize (m22_det x). intros y. destruct (negb (nearly_zero y)); [ |discriminate].
    cbv zeta. intros [= <-] i j Hi Hj. all_lt i Hi; all_lt j Hj; reflexivity.
  - unfold m33_inverse. generalize (m33_det x). intros y. destruct (negb (nearly_zero y)); [ |discriminate].
    destr33 x. intros H. lazy -[add sub mul zero recip] in H. injection H as <-. intros i j Hi Hj. all_lt i Hi; all_lt j Hj; reflexivity.
  - unfold m44_inverse. generalize (m44_det x). intros y. destruct (negb (nearly_zero y)); [ |discriminate].
    unfold adj_code.
    assert (SD : forall i j, (i < 4)%nat -> (j < 4)%nat -> exists s, m44_get_submatrix x (i, j) = Ok s).
    { intros i j Hi Hj. destruct (submatrix_44 x i j Hi Hj) as (s & E & _). eauto. }
    set (S := m44_get_submatrix x) in *. clearbody S.
    destruct (SD 0%nat 0%nat) as (s00 & E00); [lia|lia| ]. destruct (SD 0%nat 1%nat) as (s01 & E01); [lia|lia| ].
    destruct (SD 0%nat 2%nat) as (s02 & E02); [lia|lia| ]. destruct (SD 0%nat 3%nat) as (s03 & E03); [lia|lia| ].
    destruct (SD 1%nat 0%nat) as (s10 & E10); [lia|lia| ]. destruct (SD 1%nat 1%nat) as (s11 & E11); [lia|lia| ].
    destruct (SD 1%nat 2%nat) as (s12 & E12); [lia|lia| ]. destruct (SD 1%nat 3%nat) as (s13 & E13); [lia|lia| ].
    destruct (SD 2%nat 0%nat) as (s20 & E20); [lia|lia| ]. destruct (SD 2%nat 1%nat) as (s21 & E21); [lia|lia| ].
    destruct (SD 2%nat 2%nat) as (s22 & E22); [lia|lia| ]. destruct (SD 2%nat 3%nat) as (s23 & E23); [lia|lia| ].
    destruct (SD 3%nat 0%nat) as (s30 & E30); [lia|lia| ]. destruct (SD 3%nat 1%nat) as (s31 & E31); [lia|lia| ].
    destruct (SD 3%nat 2%nat) as (s32 & E32); [lia|lia| ]. destruct (SD 3%nat 3%nat) as (s33 & E33); [lia|lia| ].
    rewrite E00, E01, E02, E03, E10, E11, E12, E13, E20, E21, E22, E23, E30, E31, E32, E33. rewrite !bind_Ok. cbv zeta.
    intros H. injection H as <-. intros i j Hi Hj.
    all_lt i Hi; all_lt j Hj; rewrite ?E00, ?E01, ?E02, ?E03, ?E10, ?E11, ?E12, ?E13, ?E20, ?E21, ?E22, ?E23, ?E30, ?E31, ?E32, ?E33; reflexivity.
  - unfold m55_inverse. generalize (m55_det x). intros y. destruct (negb (nearly_zero y)); [ |discriminate]. cbv zeta.
    destruct (fill_matrix_T 5 (fun i j cofactors => s <- m55_get_submatrix x (i, j) ;;
        mset cofactors j i (mul (if Nat.eqb ((i + j) mod 2) 0 then one else neg one) (m44_det s))) (adj_code D5 x) m55_zeros)
      as (C & E & F).
    { intros i j m Hi Hj. destruct (submatrix_55 x i j Hi Hj) as (s & Es & _). rewrite Es, bind_Ok. unfold adj_code. rewrite Es.
      destruct (mset_ok 5 m j i (mul (if Nat.eqb ((i + j) mod 2) 0 then one else neg one) (m44_det s)) Hj Hi) as [m' H].
      exists m'. split; exact H. }
    rewrite E, bind_Ok. intros H. injection H as <-. intros i j Hi Hj. rewrite <- F by assumption.
    apply (d_div_entry D5); assumption.
  - unfold m66_inverse. generalize (m66_det x). intros y. destruct (negb (nearly_zero y)); [ |discriminate]. cbv zeta.
    destruct (fill_matrix_T 6 (fun i j cofactors => s <- m66_get_submatrix x (i, j) ;;
        mset cofactors j i (mul (if Nat.eqb ((i + j) mod 2) 0 then one else neg one) (m55_det s))) (adj_code D6 x) m66_zeros)
      as (C & E & F).
    { intros i j m Hi Hj. destruct (submatrix_66 x i j Hi Hj) as (s & Es & _). rewrite Es, bind_Ok. unfold adj_code. rewrite Es.
      destruct (mset_ok 6 m j i (mul (if Nat.eqb ((i + j) mod 2) 0 then one else neg one) (m55_det s)) Hj Hi) as [m' H].
      exists m'. split; exact H. }
    rewrite E, bind_Ok. intros H. injection H as <-. intros i j Hi Hj. rewrite <- F by assumption.
    apply (d_scale_entry D6); assumption.
Qed.
End Any.

(** number of roundings in the cofactors that [inverse()] computes *)
Definition cof_depth (d : dim) : nat :=
  match d with D2 => 0 | D3 => 2 | D4 => 5 | D5 => 27 | D6 => 124 end.

Lemma lperm_ext n (M N : nat -> nat -> R) : (forall i j, (i < n)%nat -> (j < n)%nat -> M i j = N i j) -> lperm n M = lperm n N.
Proof.
  revert M N. induction n as [ |n IH]; intros M N H; [reflexivity| ]. cbn [lperm]. apply sumn_ext. intros j Hj.
  rewrite (H 0%nat j ltac:(lia) Hj). f_equal. apply IH. intros a b Ha Hb. apply H; unfold skip; [ |destruct (Nat.ltb b j)]; cbn; lia.
Qed.

Lemma cofactor4 (M : nat -> nat -> R) j i : cofactor 4 M j i = (if Nat.eqb ((j + i) mod 2) 0 then 1 else -1) * ldet 3 (minor j i M).
Proof. unfold cofactor. rewrite sgn_parity. reflexivity. Qed.

Lemma cofactor5 (M : nat -> nat -> R) j i : cofactor 5 M j i = sgn (j + i) * ldet 4 (minor j i M).
Proof. reflexivity. Qed.

Lemma cofactor6 (M : nat -> nat -> R) j i : cofactor 6 M j i = sgn (j + i) * ldet 5 (minor j i M).
Proof. reflexivity. Qed.

(** the bound of [c82_inverse_error] for entry [(i, j)] *)
Definition inv_bound {prec emax : Z} (d : dim) (M : nat -> nat -> R) (i j : nat) : R :=
  let D := ldet (dimn d) M in
  let g := ((1 + uro (prec := prec)) ^ det_depth d - 1) * lperm (dimn d) M / Rabs D in
  let P := lperm (dimn d - 1) (minor j i M) in
  ((1 + uro (prec := prec)) ^ (cof_depth d + 2) / (1 - g) - 1) * (P / Rabs D) + ((1 + uro (prec := prec)) ^ S (cof_depth d) * P + 1) * eta (prec := prec) (emax := emax).

Section F.
Context {prec emax : Z} {Hp : Prec_gt_0 prec} {He : Prec_lt_emax prec emax} {O : FOracle (binary_float prec emax)}.
Notation fl := (binary_float prec emax).
Notation emin := (3 - emax - prec)%Z.
Notation fe := (FLT_exp emin prec).
Notation rnd := (round radix2 fe ZnearestE).
Notation uro := (uro (prec := prec)).
Notation eta := (eta (prec := prec) (emax := emax)).
Notation inv_bound := (inv_bound (prec := prec) (emax := emax)).
#[local] Existing Instance bdg_Num.

Lemma grid_opp q x : grid q x -> grid q (- x).
Proof. intros [k ->]. exists (- k)%Z. rewrite opp_IZR. ring. Qed.

Lemma rerr_neg q n (x : fl) r t : rerr q n x r t -> rerr q n (neg x) (- r) t.
Proof.
  destruct t as ((b&d)&g). cbn [rerr neg F_Signed]. intros A G F. rewrite is_finite_Bopp in F.
  destruct (A G F) as (B & C & D). rewrite B2R_Bopp, Rabs_Ropp. split; [exact B|split].
  - replace (- B2R x - - r) with (- (B2R x - r)) by ring. rewrite Rabs_Ropp. exact C.
  - apply grid_opp, D.
Qed.

Lemma rerr_eq q n (x : fl) r r' b b' d g : rerr q n x r (b, d, g) -> r = r' -> b = b' -> rerr q n x r' (b', d, g).
Proof. intros H <- <-. exact H. Qed.

Lemma det_D4 (s : M44 fl) : d_det D4 s = m44_det s.
Proof. reflexivity. Qed.

Lemma det_D5 (s : M55 fl) : d_det D5 s = m55_det s.
Proof. reflexivity. Qed.

Section Grid.
Variables (q : Z) (n : nat).
Hypothesis Hq : (q <= 0)%Z.
Hypothesis Hn : (emin <= q * Z.of_nat n)%Z.

(** the determinant of a submatrix *)
Lemma rerr_minor d (s : mat fl (dimn d)) (M : nat -> nat -> R) i j :
  (forall a b, (a < dimn d)%nat -> (b < dimn d)%nat -> grid q (B2R (mfun s a b)) /\ B2R (mfun s a b) = minor i j M a b) ->
  rerr q n (d_det d s) (ldet (dimn d) (minor i j M)) (lperm (dimn d) (minor i j M), det_depth d, dimn d).
Proof.
  intros H.
  pose proof (rel_det (rerr q n) (rerr_add q _ Hq Hn) (rerr_sub q _ Hq Hn) (rerr_mul q _ Hq Hn) d s _ _
    (rel_mat_leaf q n _ _ s (fun a b Ha Hb => proj1 (H a b Ha Hb)))) as R.
  rewrite bdg_det, det_exact_ldet in R. eapply rerr_eq; [exact R| | ].
  - apply ldet_ext. intros a b Ha Hb. apply H; assumption.
  - apply lperm_ext. intros a b Ha Hb. apply H; assumption.
Qed.
End Grid.

Lemma mfun_mget_eq m (A : mat fl m) k (B : mat fl k) a b c e : (a < k)%nat -> (b < k)%nat -> (c < m)%nat -> (e < m)%nat ->
  mget B a b = mget A c e -> mfun B a b = mfun A c e.
Proof. intros Ha Hb Hc He' H. rewrite !mfun_mget in H by assumption. congruence. Qed.

Lemma cof_mul_sign q n k c r b d g : (q <= 0)%Z -> (emin <= q * Z.of_nat n)%Z -> rerr q n c r (b, d, g) ->
  rerr q n (mul (if Nat.eqb (k mod 2) 0 then one else neg one : fl) c) (sgn k * r) (b, S d, g).
Proof.
  intros Hq Hn H. rewrite sgn_parity.
  assert (S1 : rerr q n (if Nat.eqb (k mod 2) 0 then one else neg one : fl) (if Nat.eqb (k mod 2) 0 then 1 else -1) (1, 0%nat, 0%nat)).
  { destruct (Nat.eqb (k mod 2) 0); [apply rerr_one| ]. replace (-1) with (- (1)) by ring. apply rerr_neg, rerr_one. }
  eapply rerr_eq; [exact (rerr_mul q n Hq Hn _ _ _ _ _ _ S1 H)|reflexivity|apply Rmult_1_l].
Qed.

Lemma adj_error_D2 (x : mat fl (dimn D2)) q : (q <= 0)%Z -> (emin <= q * Z.of_nat (dimn D2))%Z ->
  (forall i j, (i < dimn D2)%nat -> (j < dimn D2)%nat -> grid q (B2R (mfun x i j))) ->
  let M := fun i j => B2R (mfun x i j) in
  forall i j, (i < dimn D2)%nat -> (j < dimn D2)%nat ->
  rerr q (dimn D2) (adj_code D2 x i j) (cofactor (dimn D2) M j i) (lperm (dimn D2 - 1) (minor j i M), cof_depth D2, (dimn D2 - 1)%nat).
Proof.
  intros Hq Hn G M.
  assert (L : forall a b, (a < dimn D2)%nat -> (b < dimn D2)%nat ->
     rerr q (dimn D2) (mfun x a b) (B2R (mfun x a b)) (Rabs (B2R (mfun x a b)), 0%nat, 1%nat))
    by (intros; apply rerr_leaf, G; assumption).
  intros i j Hi Hj. cbn [dimn] in *. clear G. pose proof (L 0 0 ltac:(lia) ltac:(lia))%nat as L00. pose proof (L 0 1 ltac:(lia) ltac:(lia))%nat as L01.
    pose proof (L 1 0 ltac:(lia) ltac:(lia))%nat as L10. pose proof (L 1 1 ltac:(lia) ltac:(lia))%nat as L11. clear L.
    all_lt i Hi; all_lt j Hj; (eapply rerr_eq; [first [apply L00|apply L11|apply rerr_neg, L01|apply rerr_neg, L10]| | ]);
    unfold M, cofactor; lazy [sgn ldet lperm sumn minor skip Nat.ltb Nat.leb Nat.sub Nat.add add mul neg zero one R_Num R_Signed]; ring.
Qed.

Lemma adj_error_D3 (x : mat fl (dimn D3)) q : (q <= 0)%Z -> (emin <= q * Z.of_nat (dimn D3))%Z ->
  (forall i j, (i < dimn D3)%nat -> (j < dimn D3)%nat -> grid q (B2R (mfun x i j))) ->
  let M := fun i j => B2R (mfun x i j) in
  forall i j, (i < dimn D3)%nat -> (j < dimn D3)%nat ->
  rerr q (dimn D3) (adj_code D3 x i j) (cofactor (dimn D3) M j i) (lperm (dimn D3 - 1) (minor j i M), cof_depth D3, (dimn D3 - 1)%nat).
Proof.
  intros Hq Hn G M.
  assert (L : forall a b, (a < dimn D3)%nat -> (b < dimn D3)%nat ->
     rerr q (dimn D3) (mfun x a b) (B2R (mfun x a b)) (Rabs (B2R (mfun x a b)), 0%nat, 1%nat))
    by (intros; apply rerr_leaf, G; assumption).
  intros i j Hi Hj. cbn [dimn] in *. clear G.
    assert (Q : forall a b c e a' b' c' e', (a < 3)%nat -> (b < 3)%nat -> (c < 3)%nat -> (e < 3)%nat ->
       (a' < 3)%nat -> (b' < 3)%nat -> (c' < 3)%nat -> (e' < 3)%nat ->
       rerr q 3 (sub (mul (mfun x a b) (mfun x c e)) (mul (mfun x a' b') (mfun x c' e')))
         (M a b * M c e - M a' b' * M c' e') (Rabs (M a b) * Rabs (M c e) + Rabs (M a' b') * Rabs (M c' e'), 2%nat, 2%nat)).
    { intros a b c e a' b' c' e' Ha Hb Hc Hd Ha' Hb' Hc' Hd'.
      exact (rerr_sub q 3 Hq Hn _ _ _ _ _ _ (rerr_mul q 3 Hq Hn _ _ _ _ _ _ (L a b Ha Hb) (L c e Hc Hd))
        (rerr_mul q 3 Hq Hn _ _ _ _ _ _ (L a' b' Ha' Hb') (L c' e' Hc' Hd'))). }
    all_lt i Hi; all_lt j Hj;
    [eapply rerr_eq; [exact (Q 1 1 2 2 2 1 1 2 ltac:(lia) ltac:(lia) ltac:(lia) ltac:(lia) ltac:(lia) ltac:(lia) ltac:(lia) ltac:(lia))%nat| | ]
    |eapply rerr_eq; [exact (Q 0 2 2 1 0 1 2 2 ltac:(lia) ltac:(lia) ltac:(lia) ltac:(lia) ltac:(lia) ltac:(lia) ltac:(lia) ltac:(lia))%nat| | ]
    |eapply rerr_eq; [exact (Q 0 1 1 2 0 2 1 1 ltac:(lia) ltac:(lia) ltac:(lia) ltac:(lia) ltac:(lia) ltac:(lia) ltac:(lia) ltac:(lia))%nat| | ]
    |eapply rerr_eq; [exact (Q 1 2 2 0 1 0 2 2 ltac:(lia) ltac:(lia) ltac:(lia) ltac:(lia) ltac:(lia) ltac:(lia) ltac:(lia) ltac:(lia))%nat| | ]
    |eapply rerr_eq; [exact (Q 0 0 2 2 0 2 2 0 ltac:(lia) ltac:(lia) ltac:(lia) ltac:(lia) ltac:(lia) ltac:(lia) ltac:(lia) ltac:(lia))%nat| | ]
    |eapply rerr_eq; [exact (Q 1 0 0 2 0 0 1 2 ltac:(lia) ltac:(lia) ltac:(lia) ltac:(lia) ltac:(lia) ltac:(lia) ltac:(lia) ltac:(lia))%nat| | ]
    |eapply rerr_eq; [exact (Q 1 0 2 1 2 0 1 1 ltac:(lia) ltac:(lia) ltac:(lia) ltac:(lia) ltac:(lia) ltac:(lia) ltac:(lia) ltac:(lia))%nat| | ]
    |eapply rerr_eq; [exact (Q 2 0 0 1 0 0 2 1 ltac:(lia) ltac:(lia) ltac:(lia) ltac:(lia) ltac:(lia) ltac:(lia) ltac:(lia) ltac:(lia))%nat| | ]
    |eapply rerr_eq; [exact (Q 0 0 1 1 1 0 0 1 ltac:(lia) ltac:(lia) ltac:(lia) ltac:(lia) ltac:(lia) ltac:(lia) ltac:(lia) ltac:(lia))%nat| | ]];
    clear; clearbody M; unfold cofactor; lazy [sgn ldet lperm sumn minor skip Nat.ltb Nat.leb Nat.sub Nat.add add mul neg zero one R_Num R_Signed]; ring.
Qed.

Lemma adj_error_D4 (x : mat fl (dimn D4)) q : (q <= 0)%Z -> (emin <= q * Z.of_nat (dimn D4))%Z ->
  (forall i j, (i < dimn D4)%nat -> (j < dimn D4)%nat -> grid q (B2R (mfun x i j))) ->
  let M := fun i j => B2R (mfun x i j) in
  forall i j, (i < dimn D4)%nat -> (j < dimn D4)%nat ->
  rerr q (dimn D4) (adj_code D4 x i j) (cofactor (dimn D4) M j i) (lperm (dimn D4 - 1) (minor j i M), cof_depth D4, (dimn D4 - 1)%nat).
Proof.
  intros Hq Hn G M.
  assert (L : forall a b, (a < dimn D4)%nat -> (b < dimn D4)%nat ->
     rerr q (dimn D4) (mfun x a b) (B2R (mfun x a b)) (Rabs (B2R (mfun x a b)), 0%nat, 1%nat))
    by (intros; apply rerr_leaf, G; assumption).
  intros i j Hi Hj. cbn [dimn] in *. destruct (submatrix_44 x j i Hj Hi) as (s & E & H). unfold adj_code. rewrite E.
    assert (R : rerr q 4 (m33_det s) (ldet 3 (minor j i M)) (lperm 3 (minor j i M), 5%nat, 3%nat)).
    { apply (rerr_minor q 4 Hq Hn D3). cbn [dimn]. intros a b Ha Hb.
      assert (X : mfun s a b = mfun x (skip j a) (skip i b)) by (apply mfun_mget_eq; auto; apply skip_lt; assumption).
      rewrite X. split; [apply G; apply skip_lt; assumption|reflexivity]. }
    assert (C : cofactor 4 M j i = (if Nat.eqb ((j + i) mod 2) 0 then 1 else -1) * ldet 3 (minor j i M)) by (clearbody M; apply cofactor4).
    destruct (Nat.eqb ((j + i) mod 2) 0).
    + apply (rerr_eq _ _ _ _ _ _ _ _ _ R); [rewrite C; symmetry; apply Rmult_1_l|reflexivity].
    + apply (rerr_eq _ _ _ _ _ _ _ _ _ (rerr_neg _ _ _ _ _ R)); [rewrite C; ring|reflexivity].
Qed.

Lemma adj_error_D5 (x : mat fl (dimn D5)) q : (q <= 0)%Z -> (emin <= q * Z.of_nat (dimn D5))%Z ->
  (forall i j, (i < dimn D5)%nat -> (j < dimn D5)%nat -> grid q (B2R (mfun x i j))) ->
  let M := fun i j => B2R (mfun x i j) in
  forall i j, (i < dimn D5)%nat -> (j < dimn D5)%nat ->
  rerr q (dimn D5) (adj_code D5 x i j) (cofactor (dimn D5) M j i) (lperm (dimn D5 - 1) (minor j i M), cof_depth D5, (dimn D5 - 1)%nat).
Proof.
  intros Hq Hn G M.
  assert (L : forall a b, (a < dimn D5)%nat -> (b < dimn D5)%nat ->
     rerr q (dimn D5) (mfun x a b) (B2R (mfun x a b)) (Rabs (B2R (mfun x a b)), 0%nat, 1%nat))
    by (intros; apply rerr_leaf, G; assumption).
  intros i j Hi Hj. cbn [dimn] in *. destruct (submatrix_55 x j i Hj Hi) as (s & E & H). unfold adj_code. rewrite E.
    assert (X : forall a b, (a < 4)%nat -> (b < 4)%nat -> grid q (B2R (mfun s a b)) /\ B2R (mfun s a b) = minor j i M a b).
    { intros a b Ha Hb.
      assert (X : mfun s a b = mfun x (skip j a) (skip i b)) by (apply mfun_mget_eq; auto; apply skip_lt; assumption).
      rewrite X. split; [apply G; apply skip_lt; assumption|reflexivity]. }
    pose proof (rerr_minor q 5 Hq Hn D4 s M j i X) as R. rewrite det_D4 in R. cbn [dimn det_depth] in R.
    change (lperm (5 - 1)) with (lperm 4). change (5 - 1)%nat with 4%nat. change (cof_depth D5) with (S 26). rewrite cofactor5.
    apply (cof_mul_sign q 5); assumption.
Qed.

Lemma adj_error_D6 (x : mat fl (dimn D6)) q : (q <= 0)%Z -> (emin <= q * Z.of_nat (dimn D6))%Z ->
  (forall i j, (i < dimn D6)%nat -> (j < dimn D6)%nat -> grid q (B2R (mfun x i j))) ->
  let M := fun i j => B2R (mfun x i j) in
  forall i j, (i < dimn D6)%nat -> (j < dimn D6)%nat ->
  rerr q (dimn D6) (adj_code D6 x i j) (cofactor (dimn D6) M j i) (lperm (dimn D6 - 1) (minor j i M), cof_depth D6, (dimn D6 - 1)%nat).
Proof.
  intros Hq Hn G M.
  assert (L : forall a b, (a < dimn D6)%nat -> (b < dimn D6)%nat ->
     rerr q (dimn D6) (mfun x a b) (B2R (mfun x a b)) (Rabs (B2R (mfun x a b)), 0%nat, 1%nat))
    by (intros; apply rerr_leaf, G; assumption).
  intros i j Hi Hj. cbn [dimn] in *. destruct (submatrix_66 x j i Hj Hi) as (s & E & H). unfold adj_code. rewrite E.
    assert (X : forall a b, (a < 5)%nat -> (b < 5)%nat -> grid q (B2R (mfun s a b)) /\ B2R (mfun s a b) = minor j i M a b).
    { intros a b Ha Hb.
      assert (X : mfun s a b = mfun x (skip j a) (skip i b)) by (apply mfun_mget_eq; auto; apply skip_lt; assumption).
      rewrite X. split; [apply G; apply skip_lt; assumption|reflexivity]. }
    pose proof (rerr_minor q 6 Hq Hn D5 s M j i X) as R. rewrite det_D5 in R. cbn [dimn det_depth] in R.
    change (lperm (6 - 1)) with (lperm 5). change (6 - 1)%nat with 5%nat. change (cof_depth D6) with (S 123). rewrite cofactor6.
    apply (cof_mul_sign q 6); assumption.
Qed.

Lemma adj_error d (x : mat fl (dimn d)) q : (q <= 0)%Z -> (emin <= q * Z.of_nat (dimn d))%Z ->
  (forall i j, (i < dimn d)%nat -> (j < dimn d)%nat -> grid q (B2R (mfun x i j))) ->
  let M := fun i j => B2R (mfun x i j) in
  forall i j, (i < dimn d)%nat -> (j < dimn d)%nat ->
  rerr q (dimn d) (adj_code d x i j) (cofactor (dimn d) M j i) (lperm (dimn d - 1) (minor j i M), cof_depth d, (dimn d - 1)%nat).
Proof. destruct d; [apply adj_error_D2|apply adj_error_D3|apply adj_error_D4|apply adj_error_D5|apply adj_error_D6]. Qed.

(** ** the error of the entries *)

Lemma factor_error a a0 b P p m : Rabs a0 <= P -> 1 <= p -> Rabs (a - a0) <= (p - 1) * P -> Rabs (b - 1) <= m - 1 ->
  Rabs (a * b - a0) <= (p * m - 1) * P.
Proof.
  intros A Hp' E B. pose proof (Rabs_pos a0). pose proof (Rabs_pos (b - 1)).
  assert (Aa : Rabs a <= p * P).
  { replace a with ((a - a0) + a0) by ring. eapply Rle_trans; [apply Rabs_triang| ]. lra. }
  replace (a * b - a0) with ((a - a0) + a * (b - 1)) by ring. eapply Rle_trans; [apply Rabs_triang| ]. rewrite Rabs_mult.
  assert (Rabs a * Rabs (b - 1) <= p * P * (m - 1)) by (apply Rmult_le_compat; try assumption; apply Rabs_pos). lra.
Qed.

Lemma recip_error D y g : D <> 0 -> 0 <= g < 1 -> Rabs (y - D) <= g * Rabs D ->
  y <> 0 /\ Rabs (D / y - 1) <= / (1 - g) - 1.
Proof.
  intros HD Hg E.
  assert (A : 0 < Rabs D) by now apply Rabs_pos_lt.
  assert (Y : (1 - g) * Rabs D <= Rabs y).
  { pose proof (Rabs_triang_inv D y). rewrite (Rabs_minus_sym D y) in H. lra. }
  assert (Y0 : 0 < Rabs y) by nra.
  assert (y <> 0) by (intros ->; rewrite Rabs_R0 in Y0; lra). split; [assumption| ].
  replace (D / y - 1) with (- (y - D) / y) by (field; assumption).
  unfold Rdiv. rewrite Rabs_mult, Rabs_Ropp, Rabs_inv.
  assert (I : / Rabs y <= / ((1 - g) * Rabs D)) by (apply Rinv_le_contravar; [nra|exact Y]).
  pose proof (Rinv_0_lt_compat _ Y0).
  apply Rle_trans with (g * Rabs D * / ((1 - g) * Rabs D)).
  - apply Rmult_le_compat; [apply Rabs_pos|lra|exact E|exact I].
  - apply Req_le. field. lra.
Qed.

Lemma entry_error c a P p D y g w h : Rabs c <= P -> 1 <= p -> Rabs (a - c) <= (p - 1) * P -> D <> 0 -> 0 <= g < 1 ->
  Rabs (y - D) <= g * Rabs D -> forall m, Rabs (w - 1) <= m - 1 ->
  Rabs (a * (/ y * w) + h - c / D) <= (p * m / (1 - g) - 1) * (P / Rabs D) + Rabs h.
Proof.
  intros C1 Hp' E HD Hg Ey m Hw. destruct (recip_error D y g HD Hg Ey) as [Hy Q].
  assert (A : 0 < Rabs D) by now apply Rabs_pos_lt.
  assert (G : 1 <= / (1 - g)) by (rewrite <- Rinv_1 at 1; apply Rinv_le_contravar; lra).
  pose proof (factor_error a c (D / y) P p (/ (1 - g)) C1 Hp' E Q) as E1.
  pose proof (factor_error (a * (D / y)) c w P (p * / (1 - g)) m C1 ltac:(nra) E1 Hw) as E2.
  replace (a * (/ y * w) + h - c / D) with ((a * (D / y) * w - c) * / D + h) by (field; split; assumption).
  eapply Rle_trans; [apply Rabs_triang| ]. apply Rplus_le_compat_r. rewrite Rabs_mult, Rabs_inv.
  apply Rle_trans with ((p * / (1 - g) * m - 1) * P * / Rabs D).
  - apply Rmult_le_compat_r; [left; apply Rinv_0_lt_compat, A|exact E2].
  - apply Req_le. unfold Rdiv. ring.
Qed.

Lemma rnd_error r : exists e h, Rabs e <= uro /\ Rabs h <= eta /\ rnd r = r * (1 + e) + h.
Proof.
  destruct (error_N_FLT radix2 emin prec Hp (fun z => negb (Z.even z)) r) as (e & h & Le & Lh & _ & E).
  exists e, h. unfold FloatFacts.uro, FloatFacts.eta. replace (1 - prec)%Z with (- prec + 1)%Z by ring. auto.
Qed.

Lemma div_finite (x y : fl) : B2R y <> 0 -> is_finite (Bdiv mode_NE x y) = true ->
  is_finite x = true /\ B2R (Bdiv mode_NE x y) = rnd (B2R x / B2R y).
Proof.
  intros N F. pose proof (Bdiv_correct prec emax Hp He mode_NE x y N) as C.
  destruct (Rlt_bool _ _) in C.
  - destruct C as (C1 & C2 & _). rewrite F in C2. auto.
  - exfalso. destruct (Bdiv mode_NE x y); cbn in F, C; discriminate.
Qed.

Lemma eta_pos : 0 <= eta.
Proof. unfold FloatFacts.eta. pose proof (bpow_ge_0 radix2 emin). lra. Qed.

Lemma one_plus_error e : Rabs e <= uro -> Rabs (1 + e - 1) <= (1 + uro) - 1.
Proof. intros H. replace (1 + e - 1) with e by ring. lra. Qed.

(** every finite entry of the computed inverse against the exact inverse, that is the transposed cofactors divided by the determinant *)
Lemma c82_inverse_error : forall d (x : mat fl (dimn d)) q B, (q <= 0)%Z -> (emin <= q * Z.of_nat (dimn d))%Z ->
  (forall i j, (i < dimn d)%nat -> (j < dimn d)%nat -> grid q (B2R (mfun x i j))) ->
  is_finite (d_det d x) = true -> d_inverse d x = Ok (Some B) ->
  let M := fun i j => B2R (mfun x i j) in
  let D := ldet (dimn d) M in
  let g := ((1 + uro) ^ det_depth d - 1) * lperm (dimn d) M / Rabs D in
  D <> 0 -> g < 1 ->
  forall i j, (i < dimn d)%nat -> (j < dimn d)%nat -> is_finite (mfun B i j) = true ->
  let P := lperm (dimn d - 1) (minor j i M) in
  Rabs (B2R (mfun B i j) - cofactor (dimn d) M j i / D)
  <= ((1 + uro) ^ (cof_depth d + 2) / (1 - g) - 1) * (P / Rabs D) + ((1 + uro) ^ S (cof_depth d) * P + 1) * eta.
Proof.
  intros d x q B Hq Hn G F E M D g HD Hg i j Hi Hj Fb P.
  pose proof (inverse_entries d x B E i j Hi Hj) as V.
  pose proof (adj_error d x q Hq Hn G i j Hi Hj) as A. cbv zeta in A. fold M in A. fold P in A.
  pose proof (c80_det_error d x q Hq Hn G F) as Ed. cbv zeta in Ed. fold M in Ed. fold D in Ed.
  set (c := cofactor (dimn d) M j i) in *. set (a := adj_code d x i j) in *. set (y := d_det d x) in *.
  assert (AD : 0 < Rabs D) by now apply Rabs_pos_lt.
  assert (Ey : Rabs (B2R y - D) <= g * Rabs D).
  { eapply Rle_trans; [exact Ed| ]. apply Req_le. unfold g. field. lra. }
  assert (G0 : 0 <= g). { pose proof (Rabs_pos (B2R y - D)). nra. }
  destruct (recip_error D (B2R y) g HD (conj G0 Hg) Ey) as [Hy _].
  pose proof (uro_pos (prec := prec)) as U. pose proof eta_pos as T.
  assert (X : is_finite a = true -> Rabs c <= P /\ Rabs (B2R a - c) <= ((1 + uro) ^ cof_depth d - 1) * P).
  { intros Fa. destruct (A ltac:(lia) Fa) as (A1 & A2 & _). auto. }
  pose proof (pow_mono 0 (cof_depth d) ltac:(lia) : _ <= _ <= (1 + uro) ^ cof_depth d) as [_ Lp]. rewrite pow_O in Lp.
  rewrite Nat.add_comm. cbn [Nat.add pow]. set (p := (1 + uro) ^ cof_depth d) in *.
  clearbody a y p c D P. clear A Ed E G.
  assert (GG : 1 <= / (1 - g)) by (rewrite <- Rinv_1 at 1; apply Rinv_le_contravar; lra). clearbody g.
  assert (Case1 : mfun B i j = mul a (recip y) ->
     Rabs (B2R (mfun B i j) - c / D) <= ((1 + uro) * ((1 + uro) * p) / (1 - g) - 1) * (P / Rabs D) + ((1 + uro) * p * P + 1) * eta).
  { intros V'. rewrite V' in *. change (mul a (recip y)) with (Bmult mode_NE a (recip y)) in *. destruct (mult_finite a (recip y) Fb) as (Fa & Fr & ->).
    change (recip y) with (Bdiv mode_NE Bone y) in *. destruct (div_finite Bone y Hy Fr) as (_ & ->).
    rewrite Bone_correct. destruct (X Fa) as [X1 X2].
    destruct (rnd_error (1 / B2R y)) as (e1 & h1 & L1 & M1 & ->).
    destruct (rnd_error (B2R a * (1 / B2R y * (1 + e1) + h1))) as (e2 & h2 & L2 & M2 & ->).
    replace (B2R a * (1 / B2R y * (1 + e1) + h1) * (1 + e2) + h2)
      with (B2R a * (/ B2R y * ((1 + e1) * (1 + e2))) + (B2R a * (h1 * (1 + e2)) + h2)) by (unfold Rdiv; ring).
    eapply Rle_trans.
    - apply (entry_error c (B2R a) P p D (B2R y) g) with (m := (1 + uro) * (1 + uro)); try assumption; [split; assumption| ].
      replace ((1 + uro) * (1 + uro) - 1) with (((1 + uro) * (1 + uro) - 1) * 1) by ring.
      apply (factor_error (1 + e1) 1 (1 + e2) 1 (1 + uro) (1 + uro)); [rewrite Rabs_R1; lra|lra| |apply one_plus_error, L2].
      rewrite Rmult_1_r. apply one_plus_error, L1.
    - apply Rplus_le_compat.
      + apply Req_le. unfold Rdiv. ring.
      + eapply Rle_trans; [apply Rabs_triang| ]. rewrite !Rabs_mult.
        assert (Ba : Rabs (B2R a) <= p * P).
        { replace (B2R a) with ((B2R a - c) + c) by ring. eapply Rle_trans; [apply Rabs_triang| ]. lra. }
        assert (Be : Rabs (1 + e2) <= 1 + uro) by (eapply Rle_trans; [apply Rabs_triang|rewrite Rabs_R1; lra]).
        assert (Bh : Rabs h1 * Rabs (1 + e2) <= eta * (1 + uro)) by (apply Rmult_le_compat; try assumption; apply Rabs_pos).
        assert (Rabs (B2R a) * (Rabs h1 * Rabs (1 + e2)) <= p * P * (eta * (1 + uro)))
          by (apply Rmult_le_compat; try assumption; [apply Rabs_pos|apply Rmult_le_pos; apply Rabs_pos]). lra. }
  destruct d; try (apply Case1; exact V).
  cbn [inv_entry] in V. rewrite V in *. change (div a y) with (Bdiv mode_NE a y) in *.
  destruct (div_finite a y Hy Fb) as (Fa & ->). destruct (X Fa) as [X1 X2].
  destruct (rnd_error (B2R a / B2R y)) as (e1 & h1 & L1 & M1 & ->).
  replace (B2R a / B2R y * (1 + e1) + h1) with (B2R a * (/ B2R y * (1 + e1)) + h1) by (unfold Rdiv; ring).
  eapply Rle_trans.
  - apply (entry_error c (B2R a) P p D (B2R y) g) with (m := 1 + uro); try assumption; [split; assumption|apply one_plus_error, L1].
  - assert (P0 : 0 <= P) by (pose proof (Rabs_pos c); lra). apply Rplus_le_compat.
    + apply Rmult_le_compat_r; [unfold Rdiv; apply Rmult_le_pos; [exact P0|left; apply Rinv_0_lt_compat, AD]| ].
      apply Rplus_le_compat_r. unfold Rdiv. apply Rmult_le_compat_r; [lra|nra].
    + assert (0 <= (1 + uro) * p * P) by (apply Rmult_le_pos; [nra|exact P0]). nra.
Qed.

(** when the determinant overflows or is NaN, [inverse()] still answers, with a matrix of zeros and NaNs *)
Lemma c82_inverse_not_finite : forall d (x : mat fl (dimn d)), is_finite (d_det d x) = false ->
  exists B, d_inverse d x = Ok (Some B) /\
  forall i j, (i < dimn d)%nat -> (j < dimn d)%nat -> mfun B i j = B754_nan \/ exists s, mfun B i j = B754_zero s.
Proof.
  intros d x F.
  assert (E : exists B, d_inverse d x = Ok (Some B)).
  { destruct (c54_inverse d x) as [[B| ] H]; [exists B; exact H| ]. exfalso. apply c68_inverse_none_iff in H.
    destruct (d_det d x) as [ |s| | ]; try discriminate F; [ |discriminate H].
    destruct epsilon_val as [Fe _]. revert H. change (Babs (B754_infinity s)) with (B754_infinity false : fl).
    destruct (epsilon : fl); try discriminate Fe; discriminate. }
  destruct E as [B E]. exists B. split; [exact E| ]. intros i j Hi Hj. rewrite (inverse_entries d x B E i j Hi Hj).
  generalize (adj_code d x i j). intros a.
  assert (Q : forall b : fl, div b (d_det d x) = B754_nan \/ exists s, div b (d_det d x) = B754_zero s).
  { intros b. destruct (d_det d x) as [ |s| | ]; try discriminate F; destruct b; cbn; eauto. }
  assert (Z : mul a (recip (d_det d x)) = B754_nan \/ exists s, mul a (recip (d_det d x)) = B754_zero s).
  { unfold recip. destruct (Q one) as [->|[s ->]]; destruct a; cbn; eauto. }
  destruct d; [exact Z|exact Z|exact Z|exact (Q a)|exact Z].
Qed.

Lemma sumn_Rabs n (f g b : nat -> R) : (forall k, (k < n)%nat -> Rabs (f k - g k) <= b k) -> Rabs (sumn n f - sumn n g) <= sumn n b.
Proof.
  induction n as [ |n IH]; intros H; cbn [sumn].
  - change (zero : R) with 0. rewrite Rminus_0_r, Rabs_R0. lra.
  - change (Rabs (sumn n f + f n - (sumn n g + g n)) <= sumn n b + b n).
    replace (sumn n f + f n - (sumn n g + g n)) with ((sumn n f - sumn n g) + (f n - g n)) by ring.
    eapply Rle_trans; [apply Rabs_triang| ]. pose proof (IH ltac:(intros; apply H; lia)). pose proof (H n ltac:(lia)). lra.
Qed.

Lemma sumn_div n (f : nat -> R) D : sumn n (fun k => f k / D) = sumn n f / D.
Proof.
  induction n as [ |n IH]; cbn [sumn]; [change (0 = 0 / D); unfold Rdiv; ring| ]. rewrite IH. 
  change (sumn n f / D + f n / D = (sumn n f + f n) / D). unfold Rdiv. ring.
Qed.

Lemma mul_adj_n n (M : nat -> nat -> R) i j : (i < n)%nat -> (j < n)%nat ->
  sumn n (fun k => M i k * cofactor n M j k) = ldet n M * (if Nat.eqb i j then 1 else 0).
Proof. destruct n as [ |n]; [lia| ]. apply (mul_adj R_ring). Qed.
Lemma adj_mul_n n (M : nat -> nat -> R) i j : (i < n)%nat -> (j < n)%nat ->
  sumn n (fun k => cofactor n M k i * M k j) = ldet n M * (if Nat.eqb i j then 1 else 0).
Proof. destruct n as [ |n]; [lia| ]. apply (adj_mul R_ring). Qed.

(** the computed inverse multiplied by the matrix, on either side, against the identity *)
Lemma c82_inverse_residual : forall d (x : mat fl (dimn d)) q B, (q <= 0)%Z -> (emin <= q * Z.of_nat (dimn d))%Z ->
  (forall i j, (i < dimn d)%nat -> (j < dimn d)%nat -> grid q (B2R (mfun x i j))) ->
  is_finite (d_det d x) = true -> d_inverse d x = Ok (Some B) ->
  (forall i j, (i < dimn d)%nat -> (j < dimn d)%nat -> is_finite (mfun B i j) = true) ->
  let M := fun i j => B2R (mfun x i j) in
  let N := fun i j => B2R (mfun B i j) in
  ((1 + uro) ^ det_depth d - 1) * lperm (dimn d) M < Rabs (ldet (dimn d) M) ->
  forall i j, (i < dimn d)%nat -> (j < dimn d)%nat ->
  Rabs (sumn (dimn d) (fun k => M i k * N k j) - (if Nat.eqb i j then 1 else 0))
    <= sumn (dimn d) (fun k => Rabs (M i k) * inv_bound d M k j)
  /\ Rabs (sumn (dimn d) (fun k => N i k * M k j) - (if Nat.eqb i j then 1 else 0))
    <= sumn (dimn d) (fun k => inv_bound d M i k * Rabs (M k j)).
Proof.
  intros d x q B Hq Hn G F E FB M N HD i j Hi Hj.
  pose proof (c82_inverse_error d x q B Hq Hn G F E) as I. cbv zeta in I. fold M in I.
  pose proof (c80_det_error d x q Hq Hn G F) as Ed. cbv zeta in Ed. fold M in Ed. pose proof (Rabs_pos (B2R (d_det d x) - ldet (dimn d) M)) as P0.
  assert (AD : 0 < Rabs (ldet (dimn d) M)) by lra.
  assert (D0 : ldet (dimn d) M <> 0) by (intros Z; rewrite Z, Rabs_R0 in AD; lra).
  specialize (I D0).
  assert (g1 : ((1 + uro) ^ det_depth d - 1) * lperm (dimn d) M / Rabs (ldet (dimn d) M) < 1).
  { apply (Rmult_lt_reg_r (Rabs (ldet (dimn d) M))); [exact AD| ]. unfold Rdiv. rewrite Rmult_assoc, Rinv_l by lra. lra. }
  specialize (I g1).
  assert (Dl : (if Nat.eqb i j then 1 else 0) = ldet (dimn d) M * (if Nat.eqb i j then 1 else 0) / ldet (dimn d) M) by (field; exact D0).
  set (n := dimn d) in *. rewrite Dl. clear Dl. split.
  - rewrite <- (mul_adj_n n M i j Hi Hj : _ = ldet n M * (if Nat.eqb i j then 1 else 0)), <- sumn_div. apply sumn_Rabs. intros k Hk.
    change (mul (M i k) (cofactor n M j k)) with (M i k * cofactor n M j k).
    replace (M i k * N k j - M i k * cofactor n M j k / ldet n M) with (M i k * (N k j - cofactor n M j k / ldet n M)) by (unfold Rdiv; ring).
    rewrite Rabs_mult. apply Rmult_le_compat_l; [apply Rabs_pos| ]. unfold inv_bound. fold n. apply I; [exact Hk|exact Hj|apply FB; assumption].
  - rewrite <- (adj_mul_n n M i j Hi Hj : _ = ldet n M * (if Nat.eqb i j then 1 else 0)), <- sumn_div. apply sumn_Rabs. intros k Hk.
    change (mul (cofactor n M k i) (M k j)) with (cofactor n M k i * M k j).
    replace (N i k * M k j - cofactor n M k i * M k j / ldet n M) with ((N i k - cofactor n M k i / ldet n M) * M k j) by (unfold Rdiv; ring).
    rewrite Rabs_mult. apply Rmult_le_compat_r; [apply Rabs_pos| ]. unfold inv_bound. fold n. apply I; [exact Hi|exact Hk|apply FB; assumption].
Qed.
End F.

(** ** Concrete cases (f64) *)
#[local] Instance prec53 : Prec_gt_0 53 := eq_refl.
#[local] Instance emax1024 : Prec_lt_emax 53 1024 := eq_refl.
#[local] Notation f64 := (binary_float 53 1024).

(** a finite invertible matrix whose determinant overflows: [inverse()] answers with a matrix whose diagonal is zero *)
Lemma c82_inverse_overflow : forall O : FOracle f64, exists x B : M22 f64,
  (forall i j, (i < 2)%nat -> (j < 2)%nat -> is_finite (mfun x i j) = true)
  /\ ldet 2 (fun i j => B2R (mfun x i j)) <> 0
  /\ d_inverse D2 x = Ok (Some B)
  /\ mfun B 0 0 = B754_zero false /\ mfun B 1 1 = B754_zero false.
Proof.
  intros O. set (x := [| [| p2 600; B754_zero false |]; [| B754_zero false; p2 600 |] |] : M22 f64).
  destruct (c82_inverse_not_finite D2 x) as (B & E & _); [vm_compute; reflexivity| ]. exists x, B.
  split; [intros i j Hi Hj; all_lt i Hi; all_lt j Hj; vm_compute; reflexivity| ]. split.
  - assert (V : B2R (p2 600) = bpow radix2 600).
    { assert (Z : p2 600 = fofZ (2 ^ 600)) by (apply B2SF_inj; vm_compute; reflexivity).
      pose proof (Bldexp_correct 53 1024 prec53 emax1024 mode_NE Bone 600) as C. rewrite Bone_correct, Rmult_1_l in C.
      rewrite round_generic in C; [ |apply valid_rnd_round_mode|apply generic_format_bpow; cbn; lia].
      rewrite Rlt_bool_true in C; [exact (proj1 C)| ]. rewrite Rabs_pos_eq by apply bpow_ge_0. apply bpow_lt. lia. }
    replace (ldet 2 (fun i j => B2R (mfun x i j))) with (bpow radix2 600 * bpow radix2 600).
    + apply Rgt_not_eq, Rmult_lt_0_compat; apply bpow_gt_0.
    + lazy [ldet sumn minor skip Nat.ltb Nat.leb sgn]. unfold x.
      change (mfun _ 0 0) with (p2 600). change (mfun _ 1 1) with (p2 600).
      change (mfun _ 0 1) with (B754_zero false : f64). change (mfun _ 1 0) with (B754_zero false : f64). rewrite V. cbn [B2R].
      lazy [add mul neg zero one R_Num R_Signed]. ring.
  - split; [exact E| ]. rewrite !(inverse_entries D2 x B E) by (cbn; lia).
    split; apply B2SF_inj; vm_compute; reflexivity.
Qed.

(** ((1, 2), (3, 4)): the hypotheses hold *)
Example C82_case : forall O : FOracle f64, exists B, d_inverse D2 ([| [| fofZ 1; fofZ 2 |]; [| fofZ 3; fofZ 4 |] |] : M22 f64) = Ok (Some B)
  /\ Rabs (B2R (mfun B 1 0) - 3 / 2) <= / 1000000000.
Proof.
  intros O. set (x := [| [| fofZ 1; fofZ 2 |]; [| fofZ 3; fofZ 4 |] |] : M22 f64).
  assert (V00 : B2R (mfun x 0 0) = 1) by (apply int_val; vm_compute; discriminate).
  assert (V01 : B2R (mfun x 0 1) = 2) by (apply int_val; vm_compute; discriminate).
  assert (V10 : B2R (mfun x 1 0) = 3) by (apply int_val; vm_compute; discriminate).
  assert (V11 : B2R (mfun x 1 1) = 4) by (apply int_val; vm_compute; discriminate).
  assert (U : uro (prec := 53) <= / 1000000000000).
  { unfold uro. change (1 - 53)%Z with (-52)%Z. cbn. lra. }
  pose proof (uro_pos (prec := 53)) as U0.
  destruct (c54_inverse D2 x) as [[B| ] E].
  2:{ exfalso. apply c68_inverse_none_iff in E. revert E. vm_compute. discriminate. }
  exists B. split; [exact E| ].
  assert (LD : ldet 2 (fun i j => B2R (mfun x i j)) = -2).
  { lazy [ldet sumn minor skip Nat.ltb Nat.leb sgn]. rewrite V00, V01, V10, V11. lazy [add mul neg zero one R_Num R_Signed]. ring. }
  assert (LP : lperm 2 (fun i j => B2R (mfun x i j)) = 10).
  { lazy [lperm sumn minor skip Nat.ltb Nat.leb]. rewrite V00, V01, V10, V11. rewrite !Rabs_pos_eq by lra. lazy [add mul neg zero one R_Num R_Signed]. ring. }
  pose proof (c82_inverse_error D2 x 0 B ltac:(lia) ltac:(cbn; lia)) as I. cbv zeta in I. cbn [dimn det_depth cof_depth Nat.sub Nat.add] in I.
  rewrite LD, LP in I. replace (Rabs (-2)) with 2 in I by (rewrite Rabs_left; lra).
  assert (P1 : lperm 1 (minor 0 1 (fun i j => B2R (mfun x i j))) = 3).
  { lazy [lperm sumn minor skip Nat.ltb Nat.leb]. rewrite V10. rewrite Rabs_pos_eq by lra. lazy [add mul neg zero one R_Num R_Signed]. ring. }
  assert (C1 : cofactor 2 (fun i j => B2R (mfun x i j)) 0 1 = -3).
  { unfold cofactor. lazy [ldet sumn minor skip Nat.ltb Nat.leb Nat.sub sgn Nat.add]. rewrite V10. lazy [add mul neg zero one R_Num R_Signed]. ring. }
  set (w := uro (prec := 53)) in *.
  assert (G : 0 <= ((1 + w) ^ 2 - 1) * 10 / 2 <= 11 * w) by (cbn [pow]; nra).
  pose proof (I ltac:(intros i j Hi Hj; all_lt i Hi; all_lt j Hj; [apply (int_grid 1)|apply (int_grid 2)|apply (int_grid 3)|apply (int_grid 4)]; vm_compute; discriminate)
     ltac:(vm_compute; reflexivity) E ltac:(lra) ltac:(lra) 1%nat 0%nat ltac:(lia) ltac:(lia)) as J. clear I.
  rewrite P1, C1 in J. replace (-3 / -2) with (3 / 2) in J by field.
  assert (FB : is_finite (mfun B 1 0) = true).
  { rewrite (inverse_entries D2 x B E) by (cbn; lia). vm_compute. reflexivity. }
  eapply Rle_trans; [exact (J FB)| ]. clear J.
  assert (T : eta (prec := 53) (emax := 1024) <= / 1000000000000).
  { apply Rle_trans with (/ 2 * bpow radix2 (-52)); [ |cbn; lra]. apply Rmult_le_compat_l; [lra|apply bpow_le; lia]. }
  pose proof (eta_pos (prec := 53) (emax := 1024)) as T0. set (t := eta) in *. clearbody t w.
  set (g := ((1 + w) ^ 2 - 1) * 10 / 2) in *. clearbody g.
  assert (Q : (1 + w) ^ 2 / (1 - g) <= 1 + 20 * w).
  { apply (Rmult_le_reg_r (1 - g)); [lra| ]. unfold Rdiv. rewrite Rmult_assoc, Rinv_l, Rmult_1_r by lra. cbn [pow]. nra. }
  assert ((1 + w) ^ 1 * 3 + 1 <= 5) by (cbn [pow]; lra).
  assert (((1 + w) ^ 1 * 3 + 1) * t <= 5 * t) by (apply Rmult_le_compat_r; assumption).
  lra.
Qed.

Example C82_residual_case : forall O : FOracle f64, exists B, d_inverse D2 ([| [| fofZ 1; fofZ 2 |]; [| fofZ 3; fofZ 4 |] |] : M22 f64) = Ok (Some B)
  /\ Rabs (sumn 2 (fun k => B2R (mfun ([| [| fofZ 1; fofZ 2 |]; [| fofZ 3; fofZ 4 |] |] : M22 f64) 0 k) * B2R (mfun B k 0)) - 1)
     <= sumn 2 (fun k => Rabs (B2R (mfun ([| [| fofZ 1; fofZ 2 |]; [| fofZ 3; fofZ 4 |] |] : M22 f64) 0 k))
          * inv_bound (prec := 53) (emax := 1024) D2 (fun i j => B2R (mfun ([| [| fofZ 1; fofZ 2 |]; [| fofZ 3; fofZ 4 |] |] : M22 f64) i j)) k 0).
Proof.
  intros O. set (x := [| [| fofZ 1; fofZ 2 |]; [| fofZ 3; fofZ 4 |] |] : M22 f64).
  assert (V00 : B2R (mfun x 0 0) = 1) by (apply int_val; vm_compute; discriminate).
  assert (V01 : B2R (mfun x 0 1) = 2) by (apply int_val; vm_compute; discriminate).
  assert (V10 : B2R (mfun x 1 0) = 3) by (apply int_val; vm_compute; discriminate).
  assert (V11 : B2R (mfun x 1 1) = 4) by (apply int_val; vm_compute; discriminate).
  assert (U : uro (prec := 53) <= / 1000000000000).
  { unfold uro. change (1 - 53)%Z with (-52)%Z. cbn. lra. }
  pose proof (uro_pos (prec := 53)) as U0.
  destruct (c54_inverse D2 x) as [[B| ] E].
  2:{ exfalso. apply c68_inverse_none_iff in E. revert E. vm_compute. discriminate. }
  exists B. split; [exact E| ].
  assert (LD : ldet 2 (fun i j => B2R (mfun x i j)) = -2).
  { lazy [ldet sumn minor skip Nat.ltb Nat.leb sgn]. rewrite V00, V01, V10, V11. lazy [add mul neg zero one R_Num R_Signed]. ring. }
  assert (LP : lperm 2 (fun i j => B2R (mfun x i j)) = 10).
  { lazy [lperm sumn minor skip Nat.ltb Nat.leb]. rewrite V00, V01, V10, V11. rewrite !Rabs_pos_eq by lra. lazy [add mul neg zero one R_Num R_Signed]. ring. }
  refine (proj1 (c82_inverse_residual D2 x 0 B ltac:(lia) ltac:(cbn; lia) _ _ E _ _ 0%nat 0%nat ltac:(cbn; lia) ltac:(cbn; lia))).
  - intros i j Hi Hj. cbn [dimn] in Hi, Hj. all_lt i Hi; all_lt j Hj; [apply (int_grid 1)|apply (int_grid 2)|apply (int_grid 3)|apply (int_grid 4)]; vm_compute; discriminate.
  - vm_compute. reflexivity.
  - intros i j Hi Hj. rewrite (inverse_entries D2 x B E i j Hi Hj). cbn [dimn] in Hi, Hj. all_lt i Hi; all_lt j Hj; vm_compute; reflexivity.
  - cbn [dimn det_depth]. rewrite LD, LP. rewrite (Rabs_left (-2)) by lra. cbn [pow]. nra.
Qed.
