(** * ProofsNorm: C09 (Frobenius norm), C18, C19 over the reals *)

From Coq Require Import List Arith Lia Bool Reals Lra.
From Verif Require Import Base Scalar Vec Mat2 Mat3 Mat4 Mat5 Mat6 Slices MatLoops MatOps
  RingDet Spec LoopFacts Entries InstR RFacts QRFacts.
Import ListNotations.
Local Open Scope R_scope.

Section Props.
Context {K : RConsts}.

Ltac rcell := lazy -[Rplus Rmult Ropp Rminus Rdiv IZR sqrt].

(** ** Euclidean norm *)

Lemma d_vnorm2_ip d (v : arr R (dimn d)) :
  d_vnorm2 d v = sqrt (ip (dimn d) (vfun v) (vfun v)).
Proof.
  destruct d; cbn [dimn] in *; rcell; f_equal; ring.
Qed.

Lemma d_vdot_ip d (v w : arr R (dimn d)) :
  d_vdot d v w = ip (dimn d) (vfun v) (vfun w).
Proof. apply (d_vdot_entry R_ring). Qed.

Lemma c18_norm2_dot : forall d (v : arr R (dimn d)), d_vnorm2 d v = sqrt (d_vdot d v v).
Proof. intros. now rewrite d_vnorm2_ip, d_vdot_ip. Qed.

Lemma c18_dot_nonneg : forall d (v : arr R (dimn d)), 0 <= d_vdot d v v.
Proof. intros. rewrite d_vdot_ip. apply ip_nonneg. Qed.

Lemma c18_dot_zero_iff : forall d (v : arr R (dimn d)), d_vdot d v v = 0 <-> v = d_vzeros d.
Proof.
  intros d v. rewrite d_vdot_ip. split.
  - intros H. apply vfun_ext. intros i Hi. rewrite d_vzeros_entry by assumption.
    now apply (ip_zero (dimn d)).
  - intros ->. apply ip_zero_l. intros i Hi. now rewrite d_vzeros_entry.
Qed.

Lemma c18_cauchy_schwarz : forall d (v w : arr R (dimn d)),
  Rabs (d_vdot d v w) <= d_vnorm2 d v * d_vnorm2 d w.
Proof.
  intros d v w. rewrite !d_vnorm2_ip, d_vdot_ip.
  pose proof (cauchy_schwarz (dimn d) (vfun v) (vfun w)) as H.
  pose proof (ip_nonneg (dimn d) (vfun v)). pose proof (ip_nonneg (dimn d) (vfun w)).
  rewrite <- sqrt_mult by assumption. rewrite <- sqrt_Rsqr_abs. apply sqrt_le_1_alt. exact H.
Qed.

Lemma c18_triangle : forall d (v w : arr R (dimn d)),
  d_vnorm2 d (d_vadd d v w) <= d_vnorm2 d v + d_vnorm2 d w.
Proof.
  intros d v w. pose proof (c18_cauchy_schwarz d v w) as CS.
  rewrite d_vdot_ip, !d_vnorm2_ip in CS. rewrite !d_vnorm2_ip.
  pose proof (ip_nonneg (dimn d) (vfun v)) as Pv. pose proof (ip_nonneg (dimn d) (vfun w)) as Pw.
  pose proof (sqrt_pos (ip (dimn d) (vfun v) (vfun v))) as Sv. pose proof (sqrt_pos (ip (dimn d) (vfun w) (vfun w))) as Sw.
  pose proof (sqrt_sqrt _ Pv) as Ev. pose proof (sqrt_sqrt _ Pw) as Ew.
  assert (E : ip (dimn d) (vfun (d_vadd d v w)) (vfun (d_vadd d v w))
     = ip (dimn d) (vfun v) (vfun v) + 2 * ip (dimn d) (vfun v) (vfun w) + ip (dimn d) (vfun w) (vfun w)).
  { rewrite (ip_ext (dimn d) _ (fun i => vfun v i + vfun w i) _ (fun i => vfun v i + vfun w i))
      by (intros; now rewrite d_vadd_entry).
    rewrite ip_add_l, !(ip_comm (dimn d) _ (fun i => _ + _)), !ip_add_l, (ip_comm (dimn d) (vfun w) (vfun v)). ring. }
  rewrite E. apply Rsqr_incr_0_var; [ |lra]. rewrite Rsqr_sqrt.
  - unfold Rsqr. pose proof (Rle_abs (ip (dimn d) (vfun v) (vfun w))). nra.
  - rewrite <- E. apply ip_nonneg.
Qed.

Lemma c18_norm2_scale : forall d (v : arr R (dimn d)) s,
  d_vnorm2 d (d_vscale d v s) = Rabs s * d_vnorm2 d v.
Proof.
  intros d v s. rewrite !d_vnorm2_ip.
  rewrite (ip_ext _ _ (fun i => s * vfun v i) _ (fun i => s * vfun v i))
    by (intros; rewrite d_vscale_entry by assumption; cbn; ring).
  rewrite ip_scal_l, ip_comm, ip_scal_l, <- Rmult_assoc.
  rewrite sqrt_mult; [ |nra|apply ip_nonneg]. f_equal. apply sqrt_Rsqr_abs.
Qed.

(** ** normalize *)

Lemma d_vnormalize_eq d (v : arr R (dimn d)) :
  d_vnormalize d v = if Reqb (d_vnorm2 d v) 0 then Ok None
                     else Ok (Some (d_vscale d v (/ d_vnorm2 d v))).
Proof.
  destruct d; cbn [d_vnormalize d_vnorm2 d_vscale dimn] in *;
  [unfold v2_normalize; set (x := v2_norm2 v)|unfold v3_normalize; set (x := v3_norm2 v)
  |unfold v4_normalize; set (x := v4_norm2 v)|unfold v5_normalize; set (x := v5_norm2 v)
  |unfold v6_normalize; set (x := v6_norm2 v)]; clearbody x;
  cbn [eqb R_Num zero]; destruct (Reqb x 0); reflexivity.
Qed.

Lemma c19_normalize_err_iff : forall d (v : arr R (dimn d)),
  d_vnormalize d v = Ok None <-> v = d_vzeros d.
Proof.
  intros d v. rewrite d_vnormalize_eq, <- c18_dot_zero_iff, c18_norm2_dot.
  pose proof (c18_dot_nonneg d v) as P.
  destruct (Reqb_spec (sqrt (d_vdot d v v)) 0) as [E|E].
  - split; [intros _|reflexivity]. now apply sqrt_eq_0.
  - split; [discriminate| ]. intros Z. rewrite Z, sqrt_0 in E. contradiction.
Qed.

Lemma c19_normalize_ok : forall d (v : arr R (dimn d)), v <> d_vzeros d ->
  exists u, d_vnormalize d v = Ok (Some u)
    /\ d_vnorm2 d u = 1 /\ d_vscale d u (d_vnorm2 d v) = v.
Proof.
  intros d v H. rewrite d_vnormalize_eq.
  assert (P : 0 < d_vdot d v v).
  { pose proof (c18_dot_nonneg d v). destruct (Req_dec (d_vdot d v v) 0) as [E| ]; [ |lra].
    now apply c18_dot_zero_iff in E. }
  assert (N : 0 < d_vnorm2 d v) by (rewrite c18_norm2_dot; now apply sqrt_lt_R0).
  destruct (Reqb_spec (d_vnorm2 d v) 0) as [E|E]; [lra| ].
  eexists. split; [reflexivity| ]. split.
  - rewrite c18_norm2_scale, Rabs_right.
    + now rewrite Rinv_l.
    + left. now apply Rinv_0_lt_compat.
  - apply vfun_ext. intros i Hi. rewrite !d_vscale_entry by assumption. cbn. field. lra.
Qed.

(** the slice version divides by the norm unconditionally *)
Lemma c19_slice_normalize : forall n (v : arr R n), (exists i, (i < n)%nat /\ vfun v i <> 0) ->
  norm2 (alist (normalize v)) = 1
  /\ forall i, (i < n)%nat -> vfun v i = vfun (normalize v) i * norm2 (alist v).
Proof.
  intros n v (k & Hk & Hne). rewrite !norm2_ip.
  pose proof (ip_pos n (vfun v) k Hk Hne) as P. set (N := sqrt (ip n (vfun v) (vfun v))).
  assert (HN : 0 < N) by (now apply sqrt_lt_R0).
  assert (N2 : N * N = ip n (vfun v) (vfun v)) by (apply sqrt_sqrt; lra).
  split.
  - rewrite (ip_ext n _ (fun i => / N * vfun v i) _ (fun i => / N * vfun v i))
      by (intros; rewrite normalize_vfun by assumption; fold N; unfold Rdiv; ring).
    rewrite ip_scal_l, ip_comm, ip_scal_l, <- N2.
    replace (/ N * (/ N * (N * N))) with 1 by (field; lra). apply sqrt_1.
  - intros i Hi. rewrite normalize_vfun by assumption. fold N. field. lra.
Qed.

(** ** Frobenius norm *)

(** the sum of the squares of all entries *)
Definition sum_sq (n : nat) (M : nat -> nat -> R) : R :=
  sumn n (fun i => sumn n (fun j => M i j * M i j)).

Lemma sum_sq_nonneg n M : 0 <= sum_sq n M.
Proof. apply sumn_nonneg. intros. apply (ip_nonneg n (M i)). Qed.

Lemma d_norm2_sum_sq d (A : mat R (dimn d)) : d_norm2 d A = sqrt (sum_sq (dimn d) (mfun A)).
Proof. destruct d; cbn [dimn] in *; rcell; f_equal; ring. Qed.

Lemma c09_norm2_square : forall d (A : mat R (dimn d)),
  d_norm2 d A * d_norm2 d A = sum_sq (dimn d) (mfun A)
  /\ d_trace d (d_mul d (d_transpose d A) A) = sum_sq (dimn d) (mfun A).
Proof.
  intros d A. split.
  - rewrite d_norm2_sum_sq. apply sqrt_sqrt, sum_sq_nonneg.
  - rewrite (d_trace_entry R_ring). unfold sum_sq. rewrite (sumn_swap R_ring).
    apply sumn_ext. intros i Hi. rewrite (d_mul_entry R_ring) by assumption.
    apply sumn_ext. intros k Hk. now rewrite d_transpose_entry.
Qed.

Lemma c09_norm2_nonneg : forall d (A : mat R (dimn d)), 0 <= d_norm2 d A.
Proof. intros. rewrite d_norm2_sum_sq. apply sqrt_pos. Qed.

Lemma c09_norm2_zero_iff : forall d (A : mat R (dimn d)), d_norm2 d A = 0 <-> A = d_zeros d.
Proof.
  intros d A. rewrite d_norm2_sum_sq. split.
  - intros H. apply sqrt_eq_0 in H; [ |apply sum_sq_nonneg].
    apply mfun_ext. intros i j Hi Hj. rewrite d_zeros_entry by assumption.
    apply (ip_zero (dimn d) (mfun A i)); [ |assumption].
    destruct (Req_dec (ip (dimn d) (mfun A i) (mfun A i)) 0) as [ |Hne]; [assumption| ]. exfalso.
    pose proof (ip_nonneg (dimn d) (mfun A i)).
    assert (0 < sum_sq (dimn d) (mfun A)); [ |lra].
    apply (sumn_pos (dimn d) (fun i => ip (dimn d) (mfun A i) (mfun A i)) i).
    + intros. apply ip_nonneg.
    + assumption.
    + lra.
  - intros ->. rewrite <- sqrt_0. f_equal. apply (sumn_zero R_ring). intros i Hi.
    apply (sumn_zero R_ring). intros j Hj. rewrite d_zeros_entry by assumption. cbn. ring.
Qed.

Lemma sumn_le n (f g : nat -> R) : (forall i, (i < n)%nat -> f i <= g i) -> sumn n f <= sumn n g.
Proof.
  induction n as [ |n IH]; intros H; cbn; [lra| ].
  pose proof (H n ltac:(lia)). specialize (IH (fun i Hi => H i ltac:(lia))). lra.
Qed.

Lemma c09_norm2_submultiplicative : forall d (A B : mat R (dimn d)),
  d_norm2 d (d_mul d A B) <= d_norm2 d A * d_norm2 d B.
Proof.
  intros d A B. rewrite !d_norm2_sum_sq.
  rewrite <- sqrt_mult by apply sum_sq_nonneg. apply sqrt_le_1_alt.
  apply Rle_trans with (sumn (dimn d) (fun i => sumn (dimn d) (fun j =>
     ip (dimn d) (mfun A i) (mfun A i) * ip (dimn d) (fun k => mfun B k j) (fun k => mfun B k j)))).
  - unfold sum_sq. apply sumn_le. intros i Hi. apply sumn_le. intros j Hj.
    rewrite (d_mul_entry R_ring) by assumption.
    apply (cauchy_schwarz (dimn d) (mfun A i) (fun k => mfun B k j)).
  - right. unfold sum_sq. rewrite (sumn_swap R_ring (dimn d) (dimn d) (fun i j => mfun B i j * mfun B i j)).
    transitivity (sumn (dimn d) (fun i => mul (ip (dimn d) (mfun A i) (mfun A i))
       (sumn (dimn d) (fun j => ip (dimn d) (fun k => mfun B k j) (fun k => mfun B k j))))).
    + apply sumn_ext. intros i Hi. rewrite <- (sumn_scal R_ring). reflexivity.
    + rewrite (sumn_scal_r R_ring). reflexivity.
Qed.

Lemma c09_norm2_transpose : forall d (A : mat R (dimn d)),
  d_norm2 d (d_transpose d A) = d_norm2 d A.
Proof.
  intros d A. rewrite !d_norm2_sum_sq. f_equal. unfold sum_sq. rewrite (sumn_swap R_ring).
  apply sumn_ext. intros i Hi. apply sumn_ext. intros j Hj. now rewrite d_transpose_entry.
Qed.

End Props.

(** ** Concrete cases *)
Example C18_example : d_vnorm2 (fT := R_Float f64_consts) D3 [| 2; -3; 6 |] = 7
  /\ d_vdot D3 [| 2; -3; 6 |] [| 1; 1; 1 |] = 5.
Proof.
  split; [ |lazy -[Rplus Rmult Ropp Rminus IZR]; ring].
  rewrite c18_norm2_dot. replace (d_vdot _ _ _) with (7 * 7)
    by (lazy -[Rplus Rmult Ropp Rminus IZR]; ring).
  apply sqrt_square. lra.
Qed.
Example C19_example : ([| 0; 3; 4 |] : V3 R) <> d_vzeros D3.
Proof. intros H. apply (f_equal (fun v => vfun v 1)) in H. revert H. lazy -[IZR]. lra. Qed.
Example C09_norm_example : d_norm2 (fT := R_Float f64_consts) D2 [| [| 1; 1 |]; [| 1; 1 |] |] = 2.
Proof.
  rewrite d_norm2_sum_sq. replace (sum_sq _ _) with (2 * 2)
    by (lazy -[Rplus Rmult Ropp Rminus IZR]; ring).
  apply sqrt_square. lra.
Qed.
