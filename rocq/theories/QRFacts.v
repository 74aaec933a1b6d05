(** * QRFacts: inner products over the reals and the Gram-Schmidt loop, for
      every size *)

From Coq Require Import List Arith Lia Bool Reals Lra Ring.
From Verif Require Import Base Scalar Slices MatLoops RingDet Spec LoopFacts InstR RFacts.
Import ListNotations.
Local Open Scope R_scope.

(** ** Inner products of index functions *)

Definition ip (n : nat) (u v : nat -> R) : R := sumn n (fun i => u i * v i).

Lemma ip_ext n u u' v v' : (forall i, (i < n)%nat -> u i = u' i) ->
  (forall i, (i < n)%nat -> v i = v' i) -> ip n u v = ip n u' v'.
Proof. intros H1 H2. apply sumn_ext. intros i Hi. now rewrite H1, H2. Qed.

Lemma ip_comm n u v : ip n u v = ip n v u.
Proof. apply sumn_ext. intros. cbn. ring. Qed.

Lemma ip_add_l n u v w : ip n (fun i => u i + v i) w = ip n u w + ip n v w.
Proof.
  unfold ip. rewrite <- (sumn_add R_ring). apply sumn_ext. intros. cbn. ring.
Qed.

Lemma ip_sub_l n u v w : ip n (fun i => u i - v i) w = ip n u w - ip n v w.
Proof.
  unfold ip. rewrite <- (sumn_sub R_ring). apply sumn_ext. intros. cbn. ring.
Qed.

Lemma ip_scal_l n c u w : ip n (fun i => c * u i) w = c * ip n u w.
Proof.
  unfold ip. rewrite <- (sumn_scal R_ring). apply sumn_ext. intros. cbn. ring.
Qed.

Lemma ip_sum_l n k c (U : nat -> nat -> R) w :
  ip n (fun i => sumn k (fun l => c l * U l i)) w = sumn k (fun l => c l * ip n (U l) w).
Proof.
  unfold ip.
  rewrite (sumn_ext n _ (fun i => sumn k (fun l => c l * (U l i * w i)))).
  - rewrite (sumn_swap R_ring). apply sumn_ext. intros l Hl.
    exact (sumn_scal R_ring n (c l) (fun i => U l i * w i)).
  - intros i Hi. transitivity (mul (sumn k (fun l => c l * U l i)) (w i)); [reflexivity| ].
    rewrite <- (sumn_scal_r R_ring). apply sumn_ext. intros. cbn. ring.
Qed.

Lemma sumn_nonneg n (f : nat -> R) : (forall i, (i < n)%nat -> 0 <= f i) -> 0 <= sumn n f.
Proof.
  induction n as [ |n IH]; intros H; cbn; [lra| ].
  pose proof (H n ltac:(lia)). specialize (IH (fun i Hi => H i ltac:(lia))). lra.
Qed.

Lemma sumn_pos n (f : nat -> R) k : (forall i, (i < n)%nat -> 0 <= f i) -> (k < n)%nat -> 0 < f k ->
  0 < sumn n f.
Proof.
  induction n as [ |n IH]; intros H Hk Hp; cbn; [lia| ].
  pose proof (H n ltac:(lia)).
  destruct (Nat.eq_dec k n) as [->|Hne].
  - pose proof (sumn_nonneg n f (fun i Hi => H i ltac:(lia))). lra.
  - specialize (IH (fun i Hi => H i ltac:(lia)) ltac:(lia) Hp). lra.
Qed.

Lemma ip_nonneg n u : 0 <= ip n u u.
Proof. apply sumn_nonneg. intros. nra. Qed.

Lemma ip_pos n u k : (k < n)%nat -> u k <> 0 -> 0 < ip n u u.
Proof.
  intros Hk Hu. apply (sumn_pos n _ k); [intros; nra|exact Hk| ].
  destruct (Rtotal_order (u k) 0) as [?|[?|?]]; [nra|contradiction|nra].
Qed.

Lemma ip_zero n u : ip n u u = 0 -> forall i, (i < n)%nat -> u i = 0.
Proof.
  intros H i Hi. destruct (Req_dec (u i) 0) as [ |Hne]; [assumption| ].
  pose proof (ip_pos n u i Hi Hne). lra.
Qed.

Lemma ip_zero_l n u w : (forall i, (i < n)%nat -> u i = 0) -> ip n u w = 0.
Proof. intros H. apply (sumn_zero R_ring). intros i Hi. rewrite H by assumption. cbn. ring. Qed.

(** Cauchy-Schwarz *)
Theorem cauchy_schwarz n u v : ip n u v * ip n u v <= ip n u u * ip n v v.
Proof.
  destruct (Req_dec (ip n v v) 0) as [Z|NZ].
  - replace (ip n u v) with 0; [rewrite Z; lra| ]. symmetry. rewrite ip_comm.
    apply ip_zero_l. now apply ip_zero.
  - pose proof (ip_nonneg n v). assert (P : 0 < ip n v v) by lra.
    pose (w := fun i => ip n v v * u i - ip n u v * v i).
    assert (E : ip n w w = ip n v v * (ip n u u * ip n v v - ip n u v * ip n u v)).
    { unfold w. rewrite ip_sub_l, !ip_scal_l, !(ip_comm n _ (fun i => _ - _)), !ip_sub_l, !ip_scal_l.
      rewrite (ip_comm n v u). ring. }
    pose proof (ip_nonneg n w) as Hw. rewrite E in Hw.
    apply Rmult_le_reg_l with (ip n v v); [exact P| ]. nra.
Qed.

(** ** The slice functions *)

Lemma iter_sum_acc (l : list R) a : fold_left add l a = a + fold_left add l 0.
Proof.
  change (@add R R_Num) with Rplus.
  revert a. induction l as [ |x l IH]; intros a; cbn [fold_left]; [ring| ].
  rewrite IH. rewrite (IH (0 + x)). ring.
Qed.

Lemma sumn_S_R n (f : nat -> R) : sumn (S n) f = f 0%nat + sumn n (fun i => f (S i)).
Proof. apply (sumn_S_l R_ring). Qed.

Lemma dot_ip n (x y : arr R n) : dot (alist x) (alist y) = Ok (ip n (vfun x) (vfun y)).
Proof.
  unfold dot. rewrite !alist_length, Nat.eqb_refl. f_equal. unfold iter_sum, ip.
  change (@zero R R_Num) with 0.
  induction n as [ |n IH]; [reflexivity| ].
  destruct x as [a x], y as [b y]. rewrite sumn_S_R. cbn [alist combine map fold_left ahd atl fst snd].
  rewrite iter_sum_acc. change (@add R R_Num) with Rplus in *. rewrite (IH x y).
  change (0 + a * b + sumn n (fun i => vfun x i * vfun y i)
    = a * b + sumn n (fun i => vfun x i * vfun y i)). ring.
Qed.

Section WithK.
Context {K : RConsts}.

Lemma norm2_ip n (x : arr R n) : norm2 (alist x) = sqrt (ip n (vfun x) (vfun x)).
Proof.
  unfold norm2. cbn [fsqrt R_Float]. f_equal. unfold ip.
  assert (G : forall (l : list R) a, fold_left (fun n i => add (mul i i) n) l a
     = a + fold_left (fun n i => add (mul i i) n) l 0).
  { induction l as [ |z l IH]; intros a; cbn [fold_left]; [ring| ].
    rewrite IH. rewrite (IH (add (mul z z) 0)). cbn. ring. }
  change (@zero R R_Num) with 0.
  induction n as [ |n IH]; [reflexivity| ].
  destruct x as [a x]. rewrite sumn_S_R. cbn [alist fold_left ahd atl fst snd].
  rewrite G. rewrite (IH x).
  change (a * a + 0 + sumn n (fun i => vfun x i * vfun x i)
    = a * a + sumn n (fun i => vfun x i * vfun x i)). ring.
Qed.

Lemma vfun_amap n (f : R -> R) (x : arr R n) i : (i < n)%nat -> vfun (amap f x) i = f (vfun x i).
Proof.
  intros Hi. pose proof (aget_amap f n x i (vfun x i) (vfun_aget n x i Hi)) as H.
  rewrite vfun_aget in H by assumption. congruence.
Qed.

Lemma normalize_vfun n (x : arr R n) i : (i < n)%nat ->
  vfun (normalize x) i = vfun x i / sqrt (ip n (vfun x) (vfun x)).
Proof.
  intros Hi. unfold normalize. rewrite norm2_ip, vfun_amap by assumption. reflexivity.
Qed.

Lemma project_ip n (x y : arr R n) :
  project_x_over_y (alist x) (alist y)
  = Ok (ip n (vfun x) (vfun y) / ip n (vfun y) (vfun y)).
Proof. unfold project_x_over_y. rewrite !dot_ip. reflexivity. Qed.
End WithK.

(** ** Singular matrices *)

Lemma ldet_zero_row n (M : nat -> nat -> R) r : (r < n)%nat ->
  (forall j, (j < n)%nat -> M r j = 0) -> ldet n M = 0.
Proof.
  intros Hr H. destruct n as [ |n]; [lia| ].
  rewrite <- (cofactor_row R_ring n M r Hr). apply (sumn_zero R_ring).
  intros j Hj. rewrite H by assumption. cbn. ring.
Qed.

Lemma ldet_zero_col n (M : nat -> nat -> R) c : (c < n)%nat ->
  (forall i, (i < n)%nat -> M i c = 0) -> ldet n M = 0.
Proof.
  intros Hc H. rewrite <- (ldet_trans R_ring). apply (ldet_zero_row n _ c Hc). exact H.
Qed.

(** [i+1] rows that are combinations of [i] vectors *)
Lemma ldet_dependent n i (C Q : nat -> nat -> R) (r : nat -> nat -> R) : (i < n)%nat ->
  (forall l a, (l <= i)%nat -> (a < n)%nat -> C l a = sumn i (fun k => r l k * Q k a)) ->
  ldet n C = 0.
Proof.
  intros Hi H.
  pose (V := fun l k => if Nat.leb l i then (if Nat.ltb k i then r l k else 0)
                        else @delta R R_Num l k).
  pose (Q' := fun k a => if Nat.ltb k i then Q k a else if Nat.eqb k i then 0 else C k a).
  rewrite (ldet_ext n C (mmul n V Q')).
  - rewrite (ldet_mul R_ring).
    rewrite (ldet_zero_row n Q' i Hi).
    + cbn. ring.
    + intros j Hj. unfold Q'. rewrite Nat.ltb_irrefl, Nat.eqb_refl. reflexivity.
  - intros l a Hl Ha. unfold mmul. destruct (Nat.le_gt_cases l i) as [Hli|Hli].
    + rewrite H by assumption. replace n with (i + (n - i))%nat by lia.
      rewrite (sumn_split R_ring). cbn [add mul R_Num].
      assert (Z : sumn (n - i) (fun k => V l (i + k)%nat * Q' (i + k)%nat a) = 0).
      { apply (sumn_zero R_ring). intros k Hk. unfold V.
        destruct (Nat.leb_spec l i); [ |lia]. destruct (Nat.ltb_spec (i + k) i); [lia| ].
        cbn. ring. }
      rewrite Z, Rplus_0_r. apply sumn_ext. intros k Hk. unfold V, Q'.
      destruct (Nat.leb_spec l i); [ |lia]. destruct (Nat.ltb_spec k i); [reflexivity|lia].
    + transitivity (Q' l a).
      * unfold Q'. destruct (Nat.ltb_spec l i); [lia| ]. destruct (Nat.eqb_spec l i); [lia|reflexivity].
      * rewrite <- (sumn_delta_l R_ring n l (fun k => Q' k a) Hl). apply sumn_ext. intros k Hk.
        unfold V. destruct (Nat.leb_spec l i); [lia|reflexivity].
Qed.

(** ** The Gram-Schmidt loop *)

Lemma for_in_inv {A S : Type} (P : nat -> S -> Prop) (body : A -> S -> outcome S) l s d :
  P 0%nat s ->
  (forall k s, (k < length l)%nat -> P k s ->
     exists s', body (nth k l d) s = Ok s' /\ P (Datatypes.S k) s') ->
  exists s', for_in l s body = Ok s' /\ P (length l) s'.
Proof.
  revert P s. induction l as [ |x l IH]; intros P s H0 Hs; cbn [for_in].
  - exists s. auto.
  - destruct (Hs 0%nat s ltac:(cbn; lia) H0) as (s1 & E & H1). cbn [nth] in E. rewrite E. cbn [bind].
    destruct (IH (fun k => P (Datatypes.S k)) s1 H1) as (s2 & E2 & H2).
    + intros k t Hk Hp. apply (Hs (Datatypes.S k) t); [cbn; lia|exact Hp].
    + exists s2. split; [exact E2|exact H2].
Qed.

Lemma mfun_vfun_nth n (q : arr (arr R n) n) k a d : (k < n)%nat ->
  vfun (nth k (alist q) d) a = mfun q k a.
Proof.
  intros Hk. unfold vfun, mfun. f_equal.
  rewrite (nth_indep _ nil (alist d)) by (rewrite map_length, alist_length; exact Hk).
  now rewrite map_nth.
Qed.

Lemma nth_firstn {A} (l : list A) i k d : (k < i)%nat -> nth k (firstn i l) d = nth k l d.
Proof.
  revert i k. induction l as [ |x l IH]; intros i k H.
  - now rewrite firstn_nil.
  - destruct i as [ |i]; [lia| ]. destruct k as [ |k]; [reflexivity| ]. cbn. apply IH. lia.
Qed.

(** rows of an array of vectors after one of them is set *)
Lemma aset_rows n (q : arr (arr R n) n) i v : (i < n)%nat ->
  exists q', aset q i v = Ok q' /\ forall l a, (l < n)%nat ->
    mfun q' l a = if Nat.eqb l i then vfun v a else mfun q l a.
Proof.
  intros Hi. destruct (aset_ok n q i v Hi) as (q' & E). exists q'. split; [exact E| ].
  intros l a Hl. destruct (Nat.eqb_spec l i) as [->|Hne].
  - apply (mfun_row n n q' i a v). exact (aset_same n q q' i v E).
  - destruct (aget_ok n q l Hl) as (row & Er).
    rewrite (mfun_row n n q l a row Er). apply mfun_row.
    now rewrite (aset_other n q q' i l v E Hne).
Qed.

Section GS.
Context {K : RConsts} (OK : RConstsOk K).
Context {n : nat} (sub_assign : arr R n -> arr R n -> arr R n) (scale : arr R n -> R -> arr R n).
Hypothesis sub_spec : forall x y i, (i < n)%nat -> vfun (sub_assign x y) i = vfun x i - vfun y i.
Hypothesis scale_spec : forall x s i, (i < n)%nat -> vfun (scale x s) i = vfun x i * s.

Record gs_inv (C Q : nat -> nat -> R) (i : nat) : Prop := {
  gs_ortho : forall l m, (l < i)%nat -> (m < i)%nat -> ip n (Q l) (Q m) = if Nat.eqb l m then 1 else 0;
  gs_span : forall l a, (l < i)%nat -> (a < n)%nat ->
    C l a = sumn (S l) (fun k => ip n (C l) (Q k) * Q k a);
  gs_diag : forall l, (l < i)%nat -> 0 < ip n (C l) (Q l)
}.

(** one round of the outer loop *)
Lemma gs_step (cols q : arr (arr R n) n) i : ldet n (mfun cols) <> 0 -> (i < n)%nat ->
  gs_inv (mfun cols) (mfun q) i ->
  exists c v q', aget cols i = Ok c
    /\ for_in (firstn i (alist q)) c (fun elem q_tilde =>
         ci <- aget cols i ;;
         p <- project_x_over_y (alist ci) (alist elem) ;;
         Ok (sub_assign q_tilde (scale elem p))) = Ok v
    /\ 0 < ip n (vfun v) (vfun v)
    /\ aset q i (normalize v) = Ok q'
    /\ gs_inv (mfun cols) (mfun q') (S i).
Proof.
    intros Hdet Hi I. set (C := mfun cols) in *. set (Q := mfun q) in *.
    destruct (aget_ok n cols i Hi) as (c & Ec). exists c. rewrite Ec. cbn [bind].
    assert (Vc : forall a, vfun c a = C i a) by (intros a; symmetry; apply mfun_row; exact Ec).
    (* the inner loop *)
    set (qt := fun k a => C i a - sumn k (fun l => ip n (C i) (Q l) * Q l a)).
    destruct (for_in_inv (fun k (v : arr R n) => forall a, (a < n)%nat -> vfun v a = qt k a)
      (fun elem q_tilde =>
        p <- project_x_over_y (alist c) (alist elem) ;;
        Ok (sub_assign q_tilde (scale elem p)))
      (firstn i (alist q)) c c) as (v & E & Hv).
    { intros a Ha. rewrite Vc. unfold qt. cbn. ring. }
    { intros k v Hk Hv. rewrite firstn_length, alist_length in Hk.
      rewrite nth_firstn by lia. cbn [bind]. rewrite project_ip. cbn [bind].
      eexists. split; [reflexivity| ]. intros a Ha.
      rewrite sub_spec, scale_spec, Hv by assumption.
      assert (Ve : forall a, vfun (nth k (alist q) c) a = Q k a)
        by (intros; apply mfun_vfun_nth; lia).
      rewrite (ip_ext n (vfun c) (C i) (vfun (nth k (alist q) c)) (Q k)) by (intros; auto).
      rewrite (ip_ext n (vfun (nth k (alist q) c)) (Q k) (vfun (nth k (alist q) c)) (Q k))
        by (intros; auto).
      rewrite (gs_ortho _ _ _ I) by lia. rewrite Nat.eqb_refl. rewrite Ve.
      unfold qt. cbn [sumn add R_Num]. field. }
    rewrite firstn_length, alist_length, Nat.min_l in Hv by lia.
    (* it is not zero *)
    assert (NZ : ~ forall a, (a < n)%nat -> vfun v a = 0).
    { intros Z. apply Hdet. apply (ldet_dependent n i C Q
        (fun l k => if Nat.leb k l then ip n (C l) (Q k) else 0) Hi).
      intros l a Hl Ha. destruct (Nat.eq_dec l i) as [->|Hne].
      - specialize (Z a Ha). rewrite Hv in Z by assumption. unfold qt in Z.
        transitivity (sumn i (fun l => ip n (C i) (Q l) * Q l a)); [lra| ].
        apply sumn_ext. intros k Hk. destruct (Nat.leb_spec k i); [reflexivity|lia].
      - rewrite (gs_span _ _ _ I) by lia.
        replace i with (S l + (i - S l))%nat by lia. rewrite (sumn_split R_ring). cbn [add R_Num].
        assert (Z0 : sumn (i - S l) (fun k => (if Nat.leb (S l + k) l then ip n (C l) (Q (S l + k)%nat) else 0)
                   * Q (S l + k)%nat a) = 0).
        { apply (sumn_zero R_ring). intros k Hk. destruct (Nat.leb_spec (S l + k) l); [lia| ].
          cbn. ring. }
        rewrite Z0, Rplus_0_r. apply sumn_ext. intros k Hk.
        destruct (Nat.leb_spec k l); [reflexivity|lia]. }
    assert (NN : 0 < ip n (vfun v) (vfun v)).
    { pose proof (ip_nonneg n (vfun v)). destruct (Req_dec (ip n (vfun v) (vfun v)) 0) as [Z| ]; [ |lra].
      exfalso. apply NZ. intros a Ha. now apply (ip_zero n (vfun v)). }
    set (N := sqrt (ip n (vfun v) (vfun v))).
    assert (HN : 0 < N) by (apply sqrt_lt_R0; exact NN).
    assert (HN2 : N * N = ip n (vfun v) (vfun v)) by (apply sqrt_sqrt; lra).
    destruct (aset_rows n q i (normalize v) Hi) as (q' & Eq & F). exists v, q'.
    split; [reflexivity| ]. split; [exact E| ]. split; [exact NN| ]. split; [exact Eq| ].
    set (Q' := mfun q') in *.
    assert (Fo : forall l, (l < n)%nat -> l <> i -> forall a, Q' l a = Q l a).
    { intros l Hl Hne a. rewrite F by assumption. destruct (Nat.eqb_spec l i); [contradiction|reflexivity]. }
    assert (Fi : forall a, (a < n)%nat -> Q' i a = / N * qt i a).
    { intros a Ha. rewrite F by assumption. rewrite Nat.eqb_refl, normalize_vfun by assumption.
      fold N. rewrite Hv by assumption. unfold Rdiv. ring. }
    assert (Ip1 : forall l m, (l < i)%nat -> (m < i)%nat -> ip n (Q' l) (Q' m) = if Nat.eqb l m then 1 else 0).
    { intros l m Hl Hm. rewrite <- (gs_ortho _ _ _ I) by assumption.
      apply ip_ext; intros; apply Fo; lia. }
    assert (Cq : forall m, (m < i)%nat -> forall x, ip n x (Q' m) = ip n x (Q m)).
    { intros m Hm x. apply ip_ext; intros; [reflexivity|apply Fo; lia]. }
    assert (QT : forall m, (m < i)%nat -> ip n (qt i) (Q' m) = 0).
    { intros m Hm. rewrite Cq by assumption. unfold qt. rewrite ip_sub_l, ip_sum_l.
      rewrite (sumn_single R_ring i m) ; [ |assumption| ].
      - rewrite (gs_ortho _ _ _ I) by assumption. rewrite Nat.eqb_refl. cbn. ring.
      - intros k Hk Hne. rewrite (gs_ortho _ _ _ I) by assumption.
        destruct (Nat.eqb_spec k m); [contradiction| ]. cbn. ring. }
    assert (Ip2 : forall m, (m < i)%nat -> ip n (Q' i) (Q' m) = 0).
    { intros m Hm. rewrite (ip_ext n (Q' i) (fun a => / N * qt i a) (Q' m) (Q' m)) by auto.
      rewrite ip_scal_l, QT by assumption. ring. }
    assert (Ip3 : ip n (qt i) (Q' i) = N).
    { rewrite ip_comm. rewrite (ip_ext n (Q' i) (fun a => / N * qt i a) (qt i) (qt i)) by auto.
      rewrite ip_scal_l. rewrite (ip_ext n (qt i) (vfun v) (qt i) (vfun v))
        by (intros; symmetry; apply Hv; assumption).
      rewrite <- HN2. field. lra. }
    assert (Ip4 : ip n (C i) (Q' i) = N).
    { rewrite (ip_ext n (C i) (fun a => qt i a + sumn i (fun l => ip n (C i) (Q l) * Q l a)) (Q' i) (Q' i)).
      - rewrite ip_add_l, Ip3, ip_sum_l.
        replace (sumn i (fun l => ip n (C i) (Q l) * ip n (Q l) (Q' i))) with 0; [ring| ].
        symmetry. apply (sumn_zero R_ring). intros l Hl.
        rewrite (ip_comm n (Q l) (Q' i)), <- (Cq l Hl (Q' i)), Ip2 by assumption. cbn. ring.
      - intros a Ha. unfold qt. ring.
      - reflexivity. }
    split.
    + intros l m Hl Hm. destruct (Nat.eq_dec l i) as [->| ], (Nat.eq_dec m i) as [->| ].
      * rewrite Nat.eqb_refl. rewrite (ip_ext n (Q' i) (fun a => / N * qt i a) (Q' i) (Q' i)) by auto.
        rewrite ip_scal_l, Ip3. field. lra.
      * rewrite Ip2 by lia. destruct (Nat.eqb_spec i m); [lia|reflexivity].
      * rewrite ip_comm, Ip2 by lia. destruct (Nat.eqb_spec l i); [lia|reflexivity].
      * apply Ip1; lia.
    + intros l a Hl Ha. destruct (Nat.eq_dec l i) as [->| ].
      * cbn [sumn add R_Num]. rewrite Ip4, Fi by assumption.
        rewrite (sumn_ext i _ (fun l => ip n (C i) (Q l) * Q l a)).
        -- unfold qt. field. lra.
        -- intros k Hk. rewrite Cq, Fo by lia. reflexivity.
      * rewrite (gs_span _ _ _ I) by lia. apply sumn_ext. intros k Hk.
        rewrite Cq, Fo by lia. reflexivity.
    + intros l Hl. destruct (Nat.eq_dec l i) as [->| ].
      * rewrite Ip4. exact HN.
      * rewrite Cq by lia. apply (gs_diag _ _ _ I). lia.
Qed.

Theorem qr_basis_spec (cols q0 : arr (arr R n) n) : ldet n (mfun cols) <> 0 ->
  exists q, qr_basis sub_assign scale cols q0 = Ok q /\ gs_inv (mfun cols) (mfun q) n.
Proof.
  intros Hdet. unfold qr_basis.
  apply (for_inv (fun i q => gs_inv (mfun cols) (mfun q) i)).
  - lia.
  - split; intros; lia.
  - intros i q [_ Hi] I.
    destruct (gs_step cols q i Hdet Hi I) as (c & v & q' & Ec & E & _ & Eq & I').
    rewrite Ec. cbn [bind]. rewrite Ec in E. cbn [bind] in E. rewrite E. cbn [bind].
    exists q'. split; [exact Eq|exact I'].
Qed.

End GS.
