(** * ProofsFloatSolve: the accuracy of the linear solver of examples/ on floats (C84) *)

From Coq Require Import List Arith ZArith Reals Bool Lra Lia.
From Flocq Require Import Core Relative IEEE754.BinarySingleNaN.
From Verif Require Import Base Scalar Vec Mat2 Mat3 Mat4 Mat5 Mat6 Slices MatLoops MatOps Quat Programs RingDet Spec LoopFacts Entries DetEntries ProofsLoops RelFacts InstZ InstR RFacts InvFacts ProofsRing ProofsQuat InstF FloatFacts ProofsFloat ProofsPanic ProofsFloat2 ProofsFloatErr ProofsFloatNorm ProofsFloatInv.
Local Open Scope R_scope.

(** the bound of the error of entry [i] of the solution: the error of the inverse, then that of the product *)
Definition solve_bound {prec emax : Z} (d : dim) (M : nat -> nat -> R) (b : nat -> R) (i : nat) : R :=
  let u := uro (prec := prec) in
  let e := inv_bound (prec := prec) (emax := emax) d M i in
  sumn (dimn d) (fun k => e k * Rabs (b k))
  + ((1 + u) ^ dimn d - 1) * sumn (dimn d) (fun k => (Rabs (cofactor (dimn d) M k i / ldet (dimn d) M) + e k) * Rabs (b k))
  + INR (dimn d) * (1 + u) ^ dimn d * eta (prec := prec) (emax := emax).

Lemma sumn_le_R n (f g : nat -> R) : (forall k, (k < n)%nat -> f k <= g k) -> sumn n f <= sumn n g.
Proof.
  induction n as [ |n IH]; intros H; cbn [sumn]; [cbn; lra| ]. cbn [add R_Num].
  specialize (IH (fun k Hk => H k (Nat.lt_lt_succ_r _ _ Hk))). specialize (H n (Nat.lt_succ_diag_r n)). lra.
Qed.

Section F.
Context {prec emax : Z} {Hp : Prec_gt_0 prec} {He : Prec_lt_emax prec emax} {O : FOracle (binary_float prec emax)}.
Notation fl := (binary_float prec emax).
Notation emin := (3 - emax - prec)%Z.
Notation uro := (uro (prec := prec)).
Notation eta := (eta (prec := prec) (emax := emax)).
Notation inv_bound := (inv_bound (prec := prec) (emax := emax)).
Notation solve_bound := (solve_bound (prec := prec) (emax := emax)).

Lemma solve_finite d (A : mat fl (dimn d)) v i : (i < dimn d)%nat -> is_finite (vfun (d_mul_v d A v) i) = true ->
  forall k, (k < dimn d)%nat -> is_finite (mfun A i k) = true /\ is_finite (vfun v k) = true.
Proof.
  intros Hi F k Hk. rewrite d_mul_v_dotl in F by exact Hi. assert (P : (0 < dimn d)%nat) by (destruct d; cbn; lia).
  exact (proj1 (dotl_error _ _ _ P F) k Hk).
Qed.

(** every finite entry of the computed solution against the exact solution [X] *)
Lemma c84_solve_error : forall d (x : mat fl (dimn d)) (b sol ver : arr fl (dimn d)) q (X : nat -> R),
  (q <= 0)%Z -> (emin <= q * Z.of_nat (dimn d))%Z ->
  (forall i j, (i < dimn d)%nat -> (j < dimn d)%nat -> grid q (B2R (mfun x i j))) ->
  is_finite (d_det d x) = true -> solve d x b = Ok (Some (sol, ver)) ->
  let M := fun i j => B2R (mfun x i j) in
  ((1 + uro) ^ det_depth d - 1) * lperm (dimn d) M < Rabs (ldet (dimn d) M) ->
  (forall i, (i < dimn d)%nat -> sumn (dimn d) (fun j => M i j * X j) = B2R (vfun b i)) ->
  forall i, (i < dimn d)%nat -> is_finite (vfun sol i) = true ->
  Rabs (B2R (vfun sol i) - X i) <= solve_bound d M (fun k => B2R (vfun b k)) i.
Proof.
  intros d x b sol ver q X Hq Hn G F S M HD HX i Hi Fi.
  unfold solve in S. destruct (d_inverse d x) as [[B| ]| ] eqn:E; cbn [bind] in S; try discriminate. cbv zeta in S.
  injection S as Es _. subst sol.
  pose proof (c82_inverse_error d x q B Hq Hn G F E) as I. cbv zeta in I. fold M in I.
  pose proof (c80_det_error d x q Hq Hn G F) as Ed. cbv zeta in Ed. fold M in Ed. pose proof (Rabs_pos (B2R (d_det d x) - ldet (dimn d) M)) as P0.
  assert (AD : 0 < Rabs (ldet (dimn d) M)) by lra.
  assert (D0 : ldet (dimn d) M <> 0) by (intros Z; rewrite Z, Rabs_R0 in AD; lra).
  specialize (I D0).
  assert (g1 : ((1 + uro) ^ det_depth d - 1) * lperm (dimn d) M / Rabs (ldet (dimn d) M) < 1).
  { apply (Rmult_lt_reg_r (Rabs (ldet (dimn d) M))); [exact AD| ]. unfold Rdiv. rewrite Rmult_assoc, Rinv_l by lra. lra. }
  specialize (I g1).
  pose proof (solve_finite d B b i Hi Fi) as FB.
  pose proof (c50_mul_v_error d B b i Hi Fi) as EV. unfold err in EV.
  set (N := fun k => B2R (mfun B i k)) in *. set (c := fun k => B2R (vfun b k)) in *.
  change (Rabs (B2R (vfun (d_mul_v d B b) i) - sumn (dimn d) (fun k => N k * c k))
    <= ((1 + uro) ^ dimn d - 1) * sumn (dimn d) (fun k => Rabs (N k * c k)) + INR (dimn d) * (1 + uro) ^ dimn d * eta) in EV.
  set (a := fun k => cofactor (dimn d) M k i / ldet (dimn d) M).
  set (e := inv_bound d M i).
  assert (Ie : forall k, (k < dimn d)%nat -> Rabs (N k - a k) <= e k).
  { intros k Hk. unfold e, inv_bound. apply (I i k Hi Hk). apply (FB k Hk). }
  assert (XE : X i = sumn (dimn d) (fun k => a k * c k)).
  { transitivity (sumn (dimn d) (fun k => cofactor (dimn d) M k i * sumn (dimn d) (fun j => M k j * X j)) / ldet (dimn d) M).
    - apply (Rmult_eq_reg_r (ldet (dimn d) M)); [ |exact D0]. unfold Rdiv. rewrite Rmult_assoc, Rinv_l, Rmult_1_r by exact D0.
      transitivity (sumn (dimn d) (fun j => sumn (dimn d) (fun k => cofactor (dimn d) M k i * M k j) * X j)).
      + rewrite (sumn_ext _ _ (fun j => delta i j * (ldet (dimn d) M * X j))).
        * rewrite (sumn_delta_l R_ring (dimn d) i (fun j => ldet (dimn d) M * X j)) by exact Hi. ring.
        * intros j Hj. transitivity (ldet (dimn d) M * (if Nat.eqb i j then 1 else 0) * X j).
          -- f_equal. exact (adj_mul_n (dimn d) M i j Hi Hj).
          -- unfold delta. cbn [mul one zero R_Num]. ring.
      + rewrite (sumn_ext _ _ (fun j => sumn (dimn d) (fun k => cofactor (dimn d) M k i * M k j * X j))).
        2:{ intros j Hj. symmetry. exact (sumn_scal_r R_ring (dimn d) (X j) (fun k => cofactor (dimn d) M k i * M k j)). }
        rewrite (sumn_swap R_ring). apply sumn_ext. intros k Hk.
        rewrite (sumn_ext _ _ (fun j => cofactor (dimn d) M k i * (M k j * X j))) by (intros; cbn [mul R_Num]; ring).
        exact (sumn_scal R_ring (dimn d) (cofactor (dimn d) M k i) (fun j => M k j * X j)).
    - rewrite <- sumn_div. apply sumn_ext. intros k Hk. rewrite HX by exact Hk. unfold a, c. unfold Rdiv. ring. }
  assert (S1 : Rabs (sumn (dimn d) (fun k => N k * c k) - X i) <= sumn (dimn d) (fun k => e k * Rabs (c k))).
  { rewrite XE. apply sumn_Rabs. intros k Hk.
    replace (N k * c k - a k * c k) with ((N k - a k) * c k) by ring. rewrite Rabs_mult.
    apply Rmult_le_compat_r; [apply Rabs_pos|exact (Ie k Hk)]. }
  assert (S2 : sumn (dimn d) (fun k => Rabs (N k * c k)) <= sumn (dimn d) (fun k => (Rabs (a k) + e k) * Rabs (c k))).
  { apply sumn_le_R. intros k Hk. rewrite Rabs_mult. apply Rmult_le_compat_r; [apply Rabs_pos| ].
    specialize (Ie k Hk). pose proof (Rabs_triang (N k - a k) (a k)) as T. replace (N k - a k + a k) with (N k) in T by ring. lra. }
  change (Rabs (B2R (vfun (d_mul_v d B b) i) - X i) <= sumn (dimn d) (fun k => e k * Rabs (c k))
    + ((1 + uro) ^ dimn d - 1) * sumn (dimn d) (fun k => (Rabs (a k) + e k) * Rabs (c k))
    + INR (dimn d) * (1 + uro) ^ dimn d * eta).
  pose proof (pow_R1_Rle (1 + uro) (dimn d) ltac:(pose proof (uro_pos (prec := prec)); lra)) as P1.
  pose proof (Rmult_le_compat_l ((1 + uro) ^ dimn d - 1) _ _ ltac:(lra) S2) as S3.
  pose proof (Rabs_triang (B2R (vfun (d_mul_v d B b) i) - sumn (dimn d) (fun k => N k * c k)) (sumn (dimn d) (fun k => N k * c k) - X i)) as T.
  match type of T with Rabs ?t <= _ => replace t with (B2R (vfun (d_mul_v d B b) i) - X i) in T by ring end.
  eapply Rle_trans; [exact T| ]. clear - EV S1 S3. lra.
Qed.

(** the check of the program: the right-hand side computed back *)
Lemma c84_check_error : forall d (x : mat fl (dimn d)) (b sol ver : arr fl (dimn d)) q (X : nat -> R),
  (q <= 0)%Z -> (emin <= q * Z.of_nat (dimn d))%Z ->
  (forall i j, (i < dimn d)%nat -> (j < dimn d)%nat -> grid q (B2R (mfun x i j))) ->
  is_finite (d_det d x) = true -> solve d x b = Ok (Some (sol, ver)) ->
  let M := fun i j => B2R (mfun x i j) in
  ((1 + uro) ^ det_depth d - 1) * lperm (dimn d) M < Rabs (ldet (dimn d) M) ->
  (forall i, (i < dimn d)%nat -> sumn (dimn d) (fun j => M i j * X j) = B2R (vfun b i)) ->
  forall i, (i < dimn d)%nat -> is_finite (vfun ver i) = true ->
  let s := solve_bound d M (fun k => B2R (vfun b k)) in
  Rabs (B2R (vfun ver i) - B2R (vfun b i))
  <= sumn (dimn d) (fun k => Rabs (M i k) * s k)
     + ((1 + uro) ^ dimn d - 1) * sumn (dimn d) (fun k => Rabs (M i k) * (Rabs (X k) + s k))
     + INR (dimn d) * (1 + uro) ^ dimn d * eta.
Proof.
  intros d x b sol ver q X Hq Hn G F S M HD HX i Hi Fi s.
  pose proof (c84_solve_error d x b sol ver q X Hq Hn G F S HD HX) as I. fold M in I. fold s in I.
  unfold solve in S. destruct (d_inverse d x) as [[B| ]| ] eqn:E; cbn [bind] in S; try discriminate. cbv zeta in S.
  injection S as Es Ev. rewrite Es in Ev. subst ver.
  pose proof (solve_finite d x sol i Hi Fi) as FB.
  pose proof (c50_mul_v_error d x sol i Hi Fi) as EV. unfold err in EV.
  set (c := fun k => B2R (vfun sol k)) in *.
  change (Rabs (B2R (vfun (d_mul_v d x sol) i) - sumn (dimn d) (fun k => M i k * c k))
    <= ((1 + uro) ^ dimn d - 1) * sumn (dimn d) (fun k => Rabs (M i k * c k)) + INR (dimn d) * (1 + uro) ^ dimn d * eta) in EV.
  assert (Ie : forall k, (k < dimn d)%nat -> Rabs (c k - X k) <= s k) by (intros k Hk; apply (I k Hk), (FB k Hk)).
  assert (S1 : Rabs (sumn (dimn d) (fun k => M i k * c k) - B2R (vfun b i)) <= sumn (dimn d) (fun k => Rabs (M i k) * s k)).
  { rewrite <- (HX i Hi). apply sumn_Rabs. intros k Hk.
    replace (M i k * c k - M i k * X k) with (M i k * (c k - X k)) by ring. rewrite Rabs_mult.
    apply Rmult_le_compat_l; [apply Rabs_pos|exact (Ie k Hk)]. }
  assert (S2 : sumn (dimn d) (fun k => Rabs (M i k * c k)) <= sumn (dimn d) (fun k => Rabs (M i k) * (Rabs (X k) + s k))).
  { apply sumn_le_R. intros k Hk. rewrite Rabs_mult. apply Rmult_le_compat_l; [apply Rabs_pos| ].
    specialize (Ie k Hk). pose proof (Rabs_triang (c k - X k) (X k)) as T. replace (c k - X k + X k) with (c k) in T by ring. lra. }
  pose proof (pow_R1_Rle (1 + uro) (dimn d) ltac:(pose proof (uro_pos (prec := prec)); lra)) as P1.
  pose proof (Rmult_le_compat_l ((1 + uro) ^ dimn d - 1) _ _ ltac:(lra) S2) as S3.
  pose proof (Rabs_triang (B2R (vfun (d_mul_v d x sol) i) - sumn (dimn d) (fun k => M i k * c k)) (sumn (dimn d) (fun k => M i k * c k) - B2R (vfun b i))) as T.
  match type of T with Rabs ?t <= _ => replace t with (B2R (vfun (d_mul_v d x sol) i) - B2R (vfun b i)) in T by ring end.
  eapply Rle_trans; [exact T| ]. clear - EV S1 S3. lra.
Qed.
End F.

(** ** Concrete cases *)
#[local] Instance prec53 : Prec_gt_0 53 := eq_refl.
#[local] Instance emax1024 : Prec_lt_emax 53 1024 := eq_refl.
#[local] Notation f64 := (binary_float 53 1024).

(** the system [x + 2 y = 5], [3 x + 4 y = 11], of solution (1, 2) *)
Example C84_error_case : forall O : FOracle f64,
  let x := [| [| fofZ 1; fofZ 2 |]; [| fofZ 3; fofZ 4 |] |] : M22 f64 in
  let b := [| fofZ 5; fofZ 11 |] : V2 f64 in
  exists sol ver, solve D2 x b = Ok (Some (sol, ver))
  /\ Rabs (B2R (vfun sol 0) - 1) <= solve_bound (prec := 53) (emax := 1024) D2 (fun i j => B2R (mfun x i j)) (fun k => B2R (vfun b k)) 0.
Proof.
  intros O x b.
  assert (V00 : B2R (mfun x 0 0) = 1) by (apply int_val; vm_compute; discriminate).
  assert (V01 : B2R (mfun x 0 1) = 2) by (apply int_val; vm_compute; discriminate).
  assert (V10 : B2R (mfun x 1 0) = 3) by (apply int_val; vm_compute; discriminate).
  assert (V11 : B2R (mfun x 1 1) = 4) by (apply int_val; vm_compute; discriminate).
  assert (W0 : B2R (vfun b 0) = 5) by (apply int_val; vm_compute; discriminate).
  assert (W1 : B2R (vfun b 1) = 11) by (apply int_val; vm_compute; discriminate).
  assert (U : uro (prec := 53) <= / 1000000000000).
  { unfold uro. change (1 - 53)%Z with (-52)%Z. cbn. lra. }
  pose proof (uro_pos (prec := 53)) as U0.
  destruct (c54_inverse D2 x) as [[B| ] E].
  2:{ exfalso. apply c68_inverse_none_iff in E. revert E. vm_compute. discriminate. }
  assert (S : solve D2 x b = Ok (Some (d_mul_v D2 B b, d_mul_v D2 x (d_mul_v D2 B b)))) by (unfold solve; rewrite E; reflexivity).
  exists (d_mul_v D2 B b), (d_mul_v D2 x (d_mul_v D2 B b)). split; [exact S| ].
  assert (LD : ldet 2 (fun i j => B2R (mfun x i j)) = -2).
  { lazy [ldet sumn minor skip Nat.ltb Nat.leb sgn]. rewrite V00, V01, V10, V11. lazy [add mul neg zero one R_Num R_Signed]. ring. }
  assert (LP : lperm 2 (fun i j => B2R (mfun x i j)) = 10).
  { lazy [lperm sumn minor skip Nat.ltb Nat.leb]. rewrite V00, V01, V10, V11. rewrite !Rabs_pos_eq by lra. lazy [add mul neg zero one R_Num R_Signed]. ring. }
  refine (c84_solve_error D2 x b _ _ 0 (fun k => match k with O => 1 | _ => 2 end) ltac:(lia) ltac:(cbn; lia) _ _ S _ _ 0%nat ltac:(cbn; lia) _).
  - intros i j Hi Hj. cbn [dimn] in Hi, Hj. all_lt i Hi; all_lt j Hj; [apply (int_grid 1)|apply (int_grid 2)|apply (int_grid 3)|apply (int_grid 4)]; vm_compute; discriminate.
  - vm_compute. reflexivity.
  - cbn [dimn det_depth]. rewrite LD, LP. rewrite (Rabs_left (-2)) by lra. cbn [pow]. nra.
  - intros i Hi. cbn [dimn] in Hi. all_lt i Hi; cbn [dimn sumn]; rewrite ?V00, ?V01, ?V10, ?V11, ?W0, ?W1; cbn [add zero R_Num]; ring.
  - assert (EB : B = [| [| mfun B 0 0; mfun B 0 1 |]; [| mfun B 1 0; mfun B 1 1 |] |]).
    { destruct B as ((?&?&[])&(?&?&[])&[]). reflexivity. }
    rewrite EB, !(inverse_entries D2 x B E) by (cbn; lia). vm_compute. reflexivity.
Qed.
