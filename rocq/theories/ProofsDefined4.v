(** * ProofsDefined4: no undefined operation in matrices, vectors and slices (C77)

    As in ProofsDefined.v: a function on the reals is compared with the same
    function on [option R] (InstE.v), where a division by zero or a root of a
    negative number gives an error that spreads. *)

From Coq Require Import Reals Lra Bool List Arith Lia.
From Verif Require Import Base Scalar Vec Slices Mat2 Mat3 Mat4 Mat5 Mat6 MatLoops MatOps Quat Transf DualQuat
  RingDet Spec Entries DetEntries ProofsLoops InstR RFacts InstE LoopFacts QRFacts ProofsQR RelFacts ProofsDefined LiftFacts.
Import ListNotations.
Local Open Scope R_scope.

Section Defined4.
Context {K : RConsts} (OK : RConstsOk K).

Lemma det_not_zero d (A : mat R (dimn d)) : nearly_zero (d_det d A) = false -> d_det d A <> 0.
Proof.
  intros N Z. rewrite Z in N. revert N. unfold nearly_zero, nearly_equal. cbn.
  destruct (Reqb_spec 0 0); [discriminate|contradiction].
Qed.

Lemma e_det_guard d (A : mat R (dimn d)) : nearly_zero (d_det d (up_m A)) = nearly_zero (d_det d A).
Proof. rewrite e_det. apply (e_nearly_zero OK). Qed.

(** the operations without division: nothing to check but the lifting itself *)
Lemma e_d_mul d (A B : mat R (dimn d)) : d_mul d (up_m A) (up_m B) = up_m (d_mul d A B).
Proof. destruct d; reflexivity. Qed.
Lemma e_d_scale d (A : mat R (dimn d)) s : d_scale d (up_m A) (Some s) = up_m (d_scale d A s).
Proof. destruct d; reflexivity. Qed.
Lemma e_d_transpose d (A : mat R (dimn d)) : d_transpose d (up_m A) = up_m (d_transpose d A).
Proof. destruct d; reflexivity. Qed.
Lemma e_d_vsub_assign d (v w : arr R (dimn d)) : d_vsub_assign d (up_v v) (up_v w) = up_v (d_vsub_assign d v w).
Proof. destruct d; reflexivity. Qed.
Lemma e_d_vscale d (v : arr R (dimn d)) s : d_vscale d (up_v v) (Some s) = up_v (d_vscale d v s).
Proof. destruct d; reflexivity. Qed.
Lemma e_d_zeros d : d_zeros d = up_m (d_zeros d : mat R (dimn d)).
Proof. destruct d; reflexivity. Qed.
Lemma e_d_div d (A : mat R (dimn d)) s : s <> 0 -> d_div d (up_m A) (Some s) = up_m (d_div d A s).
Proof.
  intros Hs. destruct d; lazy -[Req_EM_T Rdiv IZR]; destruct (Req_EM_T s 0); (contradiction || reflexivity).
Qed.

(** ** Matrices *)
Lemma c77_scalar_div : forall d (A : mat R (dimn d)) s,
  d_div d (up_m A) (Some s) = up_m (d_div d A s) <-> s <> 0.
Proof.
  intros d A s. split; [ |apply e_d_div].
  intros H Z. subst s.
  destruct d; lazy -[Req_EM_T Rdiv IZR] in H; destruct (Req_EM_T 0 0); (contradiction || discriminate).
Qed.

Lemma c77_inverse : forall d (A : mat R (dimn d)),
  d_inverse d (up_m A) = up_o (option_map up_m) (d_inverse d A).
Proof.
  intros d A. pose proof (e_det d A) as HD. pose proof (e_det_guard d A) as HG.
  pose proof (det_not_zero d A) as HZ.
  destruct d; cbn [d_inverse d_det dimn] in *.
  - unfold m22_inverse. cbv zeta. rewrite HG. destruct (nearly_zero (m22_det A)); [reflexivity| ].
    cbn [negb]. rewrite HD, e_recip_ok by auto. reflexivity.
  - unfold m33_inverse. cbv zeta. rewrite HG. destruct (nearly_zero (m33_det A)); [reflexivity| ].
    cbn [negb]. rewrite HD, e_recip_ok by auto. reflexivity.
  - unfold m44_inverse. cbv zeta. rewrite HG. destruct (nearly_zero (m44_det A)); [reflexivity| ].
    cbn [negb]. rewrite HD, e_recip_ok by auto. unfold m44_get_submatrix.
    do 16 (apply (up_bind up_m); [apply e_get_submatrix|intros ? _]).
    reflexivity.
  - unfold m55_inverse. cbv zeta. rewrite HG. destruct (nearly_zero (m55_det A)); [reflexivity| ].
    cbn [negb]. apply (up_bind (up_m (n:=5))).
    + rewrite (e_d_zeros D5 : m55_zeros = _). apply (for_lift0 up_m). intros i m _. apply (for_lift0 up_m). clear m.
      intros j m _. apply (up_bind (up_m (n:=4))); [apply e_get_submatrix| ]. intros s _.
      replace (m44_det (up_m s)) with (Some (m44_det s)) by (symmetry; exact (e_det D4 s)).
      destruct (Nat.eqb ((i + j) mod 2) 0); apply (mset_lift Some).
    + intros m _. rewrite HD. cbn [up_o option_map]. do 2 f_equal. exact (e_d_div D5 m _ (HZ eq_refl)).
  - unfold m66_inverse. cbv zeta. rewrite HG. destruct (nearly_zero (m66_det A)); [reflexivity| ].
    cbn [negb]. apply (up_bind (up_m (n:=6))).
    + rewrite (e_d_zeros D6 : m66_zeros = _). apply (for_lift0 up_m). intros i m _. apply (for_lift0 up_m). clear m.
      intros j m _. apply (up_bind (up_m (n:=5))); [apply e_get_submatrix| ]. intros s _.
      replace (m55_det (up_m s)) with (Some (m55_det s)) by (symmetry; exact (e_det D5 s)).
      destruct (Nat.eqb ((i + j) mod 2) 0); apply (mset_lift Some).
    + intros m _. rewrite HD, e_recip_ok by auto. reflexivity.
Qed.

Definition up_qr {n} (r : mat R n * mat R n) : mat E n * mat E n := (up_m (fst r), up_m (snd r)).

Lemma c77_qr : forall d (A : mat R (dimn d)),
  d_qr d (up_m A) = up_o (option_map up_qr) (d_qr d A).
Proof.
  intros d A. rewrite !d_qr_eq, e_det_guard.
  destruct (nearly_zero (d_det d A)) eqn:N; [reflexivity| ]. cbn [negb].
  apply (up_bind up_m).
  - rewrite e_d_zeros, !e_d_transpose.
    apply (e_qr_basis (d_vsub_assign d) (d_vscale d) (d_vsub_assign d) (d_vscale d)
      (vsub_assign_entry d) (d_vscale_entry d) (e_d_vsub_assign d) (e_d_vscale d)).
    rewrite (ldet_ext _ _ (mtrans (mfun A))).
    + rewrite (ldet_trans R_ring), <- (d_det_ldet R_ring). now apply det_not_zero.
    + intros i j Hi Hj. now rewrite d_transpose_entry.
  - intros q _. rewrite !e_d_transpose, e_d_mul. reflexivity.
Qed.

Lemma c77_lu : forall d (A : mat R (dimn d)), d_lu d (up_m A) = up_o up_lu (d_lu d A).
Proof.
  intros d A.
  destruct d; cbn [d_lu]; [unfold m22_lu|unfold m33_lu|unfold m44_lu|unfold m55_lu|unfold m66_lu];
  (apply (up_bind up_lu); [apply (e_lu_factor OK)|intros ((m & e) & ix) _; reflexivity]).
Qed.

Lemma c77_norm2 : forall d (A : mat R (dimn d)), d_norm2 d (up_m A) = Some (d_norm2 d A).
Proof.
  intros d A. destruct d; cbn [d_norm2]; apply e_sqrt_ok; lazy -[Rle Rplus Rmult IZR]; nra.
Qed.

Lemma c77_real_eigenvals : forall A : M22 R,
  m22_real_eigenvals (up_m (n:=2) A) = option_map (up_v (n:=2)) (m22_real_eigenvals A).
Proof.
  intros A. unfold m22_real_eigenvals. cbv zeta.
  pose proof (e_det D2 A) as HD. cbn [d_det dimn] in HD. rewrite HD. clear HD.
  change (m22_trace (up_m (n:=2) A)) with (Some (m22_trace A)).
  set (t := m22_trace A). set (e := m22_det A).
  cbn [sub mul lit_4 lit_2 ltb zero E_Num E_POrd E_Float e2 eb R_Num R_POrd R_Float].
  destruct (Rltb_spec (t * t - 4 * e) 0) as [L|L]; [reflexivity| ].
  rewrite e_sqrt_ok by lra. cbn [add e2 E_Num R_Num]. rewrite !e_div_ok by lra. reflexivity.
Qed.

(** ** Vectors *)
Lemma c77_vnorm2 : forall d (v : arr R (dimn d)), d_vnorm2 d (up_v v) = Some (d_vnorm2 d v).
Proof.
  intros d v. destruct d; cbn [d_vnorm2]; apply e_sqrt_ok; lazy -[Rle Rplus Rmult IZR]; nra.
Qed.

Lemma c77_vdiv : forall d (v : arr R (dimn d)) s,
  d_vdiv d (up_v v) (Some s) = up_v (d_vdiv d v s) <-> s <> 0.
Proof.
  intros d v s. split.
  - intros H Z. subst s.
    destruct d; lazy -[Req_EM_T Rdiv IZR] in H; destruct (Req_EM_T 0 0); (contradiction || discriminate).
  - intros Hs. destruct d; lazy -[Req_EM_T Rdiv IZR]; destruct (Req_EM_T s 0); (contradiction || reflexivity).
Qed.

Lemma c77_vnormalize : forall d (v : arr R (dimn d)),
  d_vnormalize d (up_v v) = up_o (option_map up_v) (d_vnormalize d v).
Proof.
  intros d v. pose proof (c77_vnorm2 d v) as HN.
  destruct d; cbn [d_vnormalize d_vnorm2 dimn] in *;
  [unfold v2_normalize|unfold v3_normalize|unfold v4_normalize|unfold v5_normalize|unfold v6_normalize];
  rewrite HN; cbv zeta;
  match goal with |- context [negb (eqb (Some ?n) zero)] =>
    change (eqb (Some n) zero) with (Reqb n 0); change (eqb n zero) with (Reqb n 0);
    destruct (Reqb_spec n 0) as [Z|Z]; [reflexivity|cbn [negb]; clear HN; revert Z; generalize n] end;
  intros nn Z; lazy -[Req_EM_T Rdiv IZR]; destruct (Req_EM_T nn 0); (contradiction || reflexivity).
Qed.

(** ** Slices of any length *)
Lemma c77_slice_norm2 : forall l : list R, norm2 (map Some l) = Some (norm2 l).
Proof. exact e_norm2. Qed.

Lemma norm2_nil_zero n (v : arr R n) : norm2 (alist v) = 0 -> forall i, (i < n)%nat -> vfun v i = 0.
Proof.
  rewrite norm2_ip. intros H. apply sqrt_eq_0 in H; [ |apply ip_nonneg]. now apply ip_zero.
Qed.

(** the only division is by the norm: undefined exactly for a non-empty slice of zeros *)
Lemma c77_slice_normalize : forall n (v : arr R n),
  normalize (up_v v) = up_v (normalize v) <-> (n = 0%nat \/ exists i, (i < n)%nat /\ vfun v i <> 0).
Proof.
  intros n v. split.
  - intros H. destruct n as [ |n]; [now left|right].
    destruct (Req_EM_T (norm2 (alist v)) 0) as [Z|Z].
    + exfalso. unfold normalize in H. cbv zeta in H.
      assert (N : norm2 (alist (up_v v)) = Some 0) by (unfold up_v; rewrite alist_lift, e_norm2; now rewrite Z).
      rewrite N in H. cbn in H. destruct (Req_EM_T 0 0); [discriminate|contradiction].
    + apply Rdichotomy in Z as [Z|Z].
      * rewrite norm2_ip in Z. pose proof (sqrt_pos (ip (S n) (vfun v) (vfun v))). lra.
      * destruct (Classical_Pred_Type.not_all_ex_not nat (fun i => (i < S n)%nat -> vfun v i = 0)) as [i Hi].
        -- intros A. rewrite norm2_ip, (ip_zero_l _ _ _ A), sqrt_0 in Z. lra.
        -- apply Classical_Prop.imply_to_and in Hi. exists i. exact Hi.
  - intros [->|(i & Hi & Hv)]; [reflexivity| ].
    apply e_normalize. intros Z. apply Hv. exact (norm2_nil_zero n v Z i Hi).
Qed.

Lemma dot_self_acc (l : list R) a :
  a <= fold_left Rplus (map (fun ab => fst ab * snd ab) (combine l l)) a
  /\ (fold_left Rplus (map (fun ab => fst ab * snd ab) (combine l l)) a = a -> forall x, In x l -> x = 0)
  /\ ((forall x, In x l -> x = 0) -> fold_left Rplus (map (fun ab => fst ab * snd ab) (combine l l)) a = a).
Proof.
  revert a; induction l as [ |y l IH]; intros a; cbn [combine map fold_left]; [repeat split; [lra|intros _ x []]| ].
  destruct (IH (a + fst (y, y) * snd (y, y))) as (H1 & H2 & H3). cbn [fst snd] in *.
  split; [nra| ]. split.
  - intros E. assert (Y : y * y = 0) by (assert (0 <= y * y) by nra; lra).
    assert (Y0 : y = 0) by (apply Rmult_integral in Y as [?|?]; assumption).
    intros x [<-|Hx]; [exact Y0| ]. apply H2; [ |exact Hx]. rewrite E. lra.
  - intros A. assert (Y0 : y = 0) by (apply A; now left). rewrite Y0 in *.
    rewrite H3; [lra|intros x Hx; apply A; now right].
Qed.

Lemma c77_project : forall (x y : list R), length x = length y ->
  (project_x_over_y (map Some x) (map Some y) = up_o Some (project_x_over_y x y)
   <-> exists a, In a y /\ a <> 0).
Proof.
  intros x y Hl.
  assert (D : dot y y = Ok (iter_sum (map (fun ab => mul (fst ab) (snd ab)) (combine y y))))
    by (unfold dot; now rewrite Nat.eqb_refl).
  destruct (dot_self_acc y 0) as (_ & H2 & H3).
  change (fold_left Rplus (map (fun ab => fst ab * snd ab) (combine y y)) 0)
    with (iter_sum (map (fun ab => mul (fst ab) (snd ab)) (combine y y))) in H2, H3.
  split.
  - intros H. destruct (Req_EM_T (iter_sum (map (fun ab => mul (fst ab) (snd ab)) (combine y y))) 0) as [Z|Z].
    + exfalso. unfold project_x_over_y in H. rewrite !e_dot, D, Z in H. unfold dot in H.
      rewrite Hl, Nat.eqb_refl in H. cbn in H. destruct (Req_EM_T 0 0); [discriminate|contradiction].
    + destruct (Classical_Pred_Type.not_all_ex_not R (fun a => In a y -> a = 0)) as [a Ha].
      * intros A. apply Z. now apply H3.
      * apply Classical_Prop.imply_to_and in Ha. exists a. exact Ha.
  - intros (a & Ha & Hn). apply e_project. rewrite D. intros Z. injection Z as Z.
    apply Hn. exact (H2 Z a Ha).
Qed.

End Defined4.

(** ** Concrete cases *)
#[local] Existing Instance f64_consts.
Example C77_slice_example : normalize (up_v ([|0; 3; -4|] : arr R 3)) = up_v (normalize ([|0; 3; -4|] : arr R 3)).
Proof. apply c77_slice_normalize. right. exists 1%nat. split; [lia|change (3 <> 0); lra]. Qed.
Example C77_slice_undefined : normalize (up_v ([|0; 0|] : arr R 2)) <> up_v (normalize ([|0; 0|] : arr R 2)).
Proof.
  intros H. apply c77_slice_normalize in H as [H|(i & Hi & Hv)]; [discriminate| ].
  destruct i as [ |[ |i]]; [apply Hv; reflexivity|apply Hv; reflexivity|lia].
Qed.
Example C77_project_example :
  project_x_over_y (map Some [1; 2]) (map Some [0; 2]) = up_o Some (project_x_over_y [1; 2] [0; 2]).
Proof. apply c77_project; [reflexivity| ]. exists 2. split; [right; now left|lra]. Qed.
Example C77_lu_example :
  d_lu D2 (up_m (n:=2) ([| [|0; 1|]; [|0; 0|] |] : M22 R)) = up_o up_lu (d_lu D2 ([| [|0; 1|]; [|0; 0|] |] : M22 R)).
Proof. apply (c77_lu f64_consts_ok D2). Qed.
