(** * LiftFacts: loops, arrays and matrix methods under a change of number type

    [up_o u] carries the result of a computation over; these lemmas carry loops
    and array accesses over, and with them the loop-shaped matrix methods from
    the reals to the reals with an error value (InstE.v). *)

From Coq Require Import Reals Lra Bool List Arith Lia.
From Verif Require Import Base Scalar Vec Slices Mat2 Mat3 Mat4 Mat5 Mat6 MatLoops MatOps Quat Transf DualQuat
  RingDet Spec Entries InstR RFacts InstE LoopFacts QRFacts RelFacts.
Import ListNotations.
Local Open Scope R_scope.

(** ** Loops *)
Lemma up_bind {A B A' B'} (u : A -> A') (w : B -> B') (x : outcome A) (x' : outcome A')
  (f : A -> outcome B) (f' : A' -> outcome B') :
  x' = up_o u x -> (forall a, x = Ok a -> f' (u a) = up_o w (f a)) -> bind x' f' = up_o w (bind x f).
Proof. intros -> H. destruct x; cbn; [apply H; reflexivity|reflexivity]. Qed.

Lemma for_from_lift {S S' : Type} (u : S -> S') (P : nat -> S -> Prop) body body' k : forall i s,
  P i s ->
  (forall j s, (i <= j < i + k)%nat -> P j s -> body' j (u s) = up_o u (body j s)
     /\ (forall s', body j s = Ok s' -> P (Datatypes.S j) s')) ->
  for_from i k body' (u s) = up_o u (for_from i k body s).
Proof.
  induction k as [ |k IH]; intros i s Hs H; cbn [for_from]; [reflexivity| ].
  destruct (H i s ltac:(lia) Hs) as [E N].
  apply (up_bind u u _ _ _ _ E). intros s' Es. apply IH; [auto| ].
  intros j t Hj. apply H. lia.
Qed.

Lemma for_lift {S S' : Type} (u : S -> S') (P : nat -> S -> Prop) body body' lo hi s :
  P lo s ->
  (forall j s, (lo <= j < hi)%nat -> P j s -> body' j (u s) = up_o u (body j s)
     /\ (forall s', body j s = Ok s' -> P (Datatypes.S j) s')) ->
  for_ lo hi (u s) body' = up_o u (for_ lo hi s body).
Proof.
  intros Hs H. apply (for_from_lift u P); [exact Hs| ]. intros j t Hj. apply H. lia.
Qed.

Lemma for_lift0 {S S' : Type} (u : S -> S') body body' lo hi s :
  (forall j s, (lo <= j < hi)%nat -> body' j (u s) = up_o u (body j s)) ->
  for_ lo hi (u s) body' = up_o u (for_ lo hi s body).
Proof. intros H. apply (for_lift u (fun _ _ => True)); auto. Qed.

Lemma for_in_lift {A A' S S' : Type} (f : A -> A') (u : S -> S') (body : A -> S -> outcome S) body' l : forall s,
  (forall a s, In a l -> body' (f a) (u s) = up_o u (body a s)) ->
  for_in (map f l) (u s) body' = up_o u (for_in l s body).
Proof.
  induction l as [ |a l IH]; intros s H; cbn [for_in map]; [reflexivity| ].
  apply (up_bind u u _ _ _ _ (H a s (or_introl eq_refl))). intros s' _. apply IH.
  intros; apply H; now right.
Qed.

(** ** Arrays *)
Section Arr.
Context {A B : Type} (f : A -> B).

Lemma aget_lift n (v : arr A n) i : aget (amap f v) i = up_o f (aget v i).
Proof. revert i; induction n as [ |n IH]; intros i; [reflexivity| ]. destruct i; cbn; [reflexivity|apply IH]. Qed.
Lemma aset_lift n (v : arr A n) i x : aset (amap f v) i (f x) = up_o (amap f) (aset v i x).
Proof.
  revert i; induction n as [ |n IH]; intros i; [reflexivity| ]. destruct i; cbn; [reflexivity| ].
  rewrite IH. destruct (aset (snd v) i x); reflexivity.
Qed.
Lemma amake_lift n x : amake n (f x) = amap f (amake n x).
Proof. induction n as [ |n IH]; [reflexivity| ]. cbn. now rewrite IH. Qed.
Lemma alist_lift n (v : arr A n) : alist (amap f v) = map f (alist v).
Proof. induction n as [ |n IH]; [reflexivity| ]. cbn. now rewrite IH. Qed.
End Arr.

Lemma mget_lift {A B} (f : A -> B) n (m : mat A n) i j :
  mget (amap (amap f) m) i j = up_o f (mget m i j).
Proof.
  unfold mget. apply (up_bind (amap f)); [apply aget_lift| ]. intros a _. apply aget_lift.
Qed.
Lemma mset_lift {A B} (f : A -> B) n (m : mat A n) i j x :
  mset (amap (amap f) m) i j (f x) = up_o (amap (amap f)) (mset m i j x).
Proof.
  unfold mset. apply (up_bind (amap f)); [apply aget_lift| ]. intros a _.
  apply (up_bind (amap f)); [apply aset_lift| ]. intros b _. apply aset_lift.
Qed.

(** ** The reals with an error value *)
Section Lift.
Context {K : RConsts} (OK : RConstsOk K).

Definition up_s {A} {n} (s : arr R n * A) : arr E n * A := (up_v (fst s), snd s).
Definition up_ms {A} {n} (s : mat R n * A) : mat E n * A := (up_m (fst s), snd s).

Lemma e_zero_m n : amake n (amake n (zero : E)) = up_m (amake n (amake n (zero : R))).
Proof. unfold up_m. rewrite <- (amake_lift (amap Some)), <- (amake_lift Some). reflexivity. Qed.
Lemma e_zero_v n : amake n (zero : E) = up_v (amake n (zero : R)).
Proof. apply (amake_lift Some). Qed.

Lemma e_collect n sel k (A : mat R n) : collect sel k (up_m A) = up_o up_v (collect sel k A).
Proof.
  unfold collect. apply (up_bind up_s).
  - rewrite e_zero_v. apply (for_lift0 (S := arr R k * nat) up_s _ _ 0 n (amake k zero, 0%nat)).
    intros i s _. apply (for_lift0 up_s). clear s. intros j [r ix] _. unfold up_s; cbn [fst snd].
    destruct (sel i j); [ |reflexivity].
    apply (up_bind Some); [apply mget_lift| ]. intros x _.
    apply (up_bind up_v); [apply aset_lift| ]. intros y _. reflexivity.
  - intros [r ix] _. reflexivity.
Qed.

Lemma e_get_submatrix n m k (A : mat R n) s :
  get_submatrix m k (up_m A) s = up_o up_m (get_submatrix m k A s).
Proof.
  unfold get_submatrix. apply (up_bind up_v); [apply e_collect| ]. intros v _.
  apply (up_bind up_ms).
  - rewrite e_zero_m. apply (for_lift0 (S := mat R m * nat) up_ms _ _ 0 m (amake m (amake m zero), 0%nat)).
    intros i st _. apply (for_lift0 up_ms). clear st. intros j [r ix] _. unfold up_ms; cbn [fst snd].
    apply (up_bind Some); [apply aget_lift| ]. intros x _.
    apply (up_bind up_m); [apply mset_lift| ]. intros y _. reflexivity.
  - intros [r ix] _. reflexivity.
Qed.

Lemma e_rel_row n (v : arr R n) : rel_row (fun (a : E) (b c : R) => a = Some b) n (up_v v) v v.
Proof. induction n as [ |n IH]; [exact I| ]. split; [reflexivity|apply IH]. Qed.
Lemma e_rel_mat n m (A : arr (arr R n) m) :
  rel_mat (fun (a : E) (b c : R) => a = Some b) n m (amap up_v A) A A.
Proof. induction m as [ |m IH]; [exact I| ]. split; [apply e_rel_row|apply IH]. Qed.

Lemma e_det d (A : mat R (dimn d)) : d_det d (up_m A) = Some (d_det d A).
Proof.
  refine (rel_det (fun (a : E) (b c : R) => a = Some b) _ _ _ d (up_m A) A A (e_rel_mat (dimn d) (dimn d) A)).
  all: intros a a' b b' c c' -> ->; reflexivity.
Qed.

(** ** Slices *)
Lemma e_sum_acc (l : list R) a : fold_left add (map Some l) (Some a) = Some (fold_left add l a).
Proof. revert a; induction l as [ |x l IH]; intros a; [reflexivity| ]. cbn. apply IH. Qed.
Lemma e_iter_sum (l : list R) : iter_sum (map Some l) = Some (iter_sum l).
Proof. apply e_sum_acc. Qed.
Lemma e_dot (l m : list R) : dot (map Some l) (map Some m) = up_o Some (dot l m).
Proof.
  unfold dot. rewrite !map_length. destruct (Nat.eqb (length l) (length m)); [ |reflexivity].
  cbn [up_o]. f_equal. rewrite <- e_iter_sum. f_equal.
  revert m; induction l as [ |x l IH]; intros [ |y m]; try reflexivity. cbn. f_equal. apply IH.
Qed.
Lemma e_sumsq_acc (l : list R) a :
  fold_left (fun n i => add (mul i i) n) (map Some l) (Some a) = Some (fold_left (fun n i => add (mul i i) n) l a).
Proof. revert a; induction l as [ |x l IH]; intros a; [reflexivity| ]. cbn. apply IH. Qed.
Lemma sumsq_acc_nn (l : list R) a : 0 <= a -> 0 <= fold_left (fun n i => i * i + n) l a.
Proof. revert a; induction l as [ |x l IH]; intros a Ha; [exact Ha| ]. cbn. apply IH. nra. Qed.
Lemma e_norm2 (l : list R) : norm2 (map Some l) = Some (norm2 l).
Proof.
  unfold norm2. refine (eq_trans (f_equal fsqrt (e_sumsq_acc l 0)) _). apply e_sqrt_ok.
  apply sumsq_acc_nn. cbn; lra.
Qed.
Lemma e_div_map n (v : arr R n) s : s <> 0 ->
  amap (fun x => div x (Some s)) (up_v v) = up_v (amap (fun x => div x s) v).
Proof.
  intros Hs. induction n as [ |n IH]; [reflexivity| ]. cbn [amap up_v]. f_equal; [ |apply IH].
  now apply e_div_ok.
Qed.
Lemma e_normalize n (v : arr R n) : norm2 (alist v) <> 0 -> normalize (up_v v) = up_v (normalize v).
Proof.
  intros H. unfold normalize. cbv zeta.
  assert (N : norm2 (alist (up_v v)) = Some (norm2 (alist v))) by (unfold up_v; rewrite alist_lift; apply e_norm2).
  rewrite N. now apply e_div_map.
Qed.
Lemma e_project (l m : list R) : dot m m <> Ok 0 ->
  project_x_over_y (map Some l) (map Some m) = up_o Some (project_x_over_y l m).
Proof.
  intros H. unfold project_x_over_y. apply (up_bind Some); [apply e_dot| ]. intros a _.
  apply (up_bind Some); [apply e_dot| ]. intros b Eb. cbn [up_o]. f_equal. apply e_div_ok.
  intros ->. contradiction.
Qed.

(** ** LU *)
Definition up_lu {n} (r : mat R n * R * arr nat n) : mat E n * E * arr nat n :=
  let '(m, d, ix) := r in (up_m m, Some d, ix).
Definition up_st {n} (st : mat R n * arr R n * R * arr nat n) : mat E n * arr E n * E * arr nat n :=
  let '(m, v, d, ix) := st in (up_m m, up_v v, Some d, ix).

Lemma e_ltb_if (a b : R) : (if ltb (Some a) (Some b) then Some b else Some a) = Some (if ltb a b then b else a).
Proof. cbn. destruct (Rltb a b); reflexivity. Qed.

Lemma e_lu_scaling n (A : mat R n) (vv : arr R n) :
  lu_scaling (up_m A) (up_v vv) = up_o up_v (lu_scaling A vv).
Proof.
  unfold lu_scaling. pose (u := fun s : arr R n * R => (up_v (fst s), Some (snd s))).
  apply (up_bind u).
  - apply (for_lift0 u _ _ 0 n (vv, 0)). intros i [v big] _. unfold u at 1; cbn [fst snd].
    apply (up_bind Some).
    + apply (for_lift0 Some). intros j b _. apply (up_bind Some); [apply mget_lift| ].
      intros x _. cbn [up_o]. f_equal. apply e_ltb_if.
    + intros b _. change (eqb (Some b) zero) with (eqb b zero). cbn [eqb R_Num zero].
      destruct (Reqb_spec b 0) as [_|Hb]; [reflexivity| ].
      rewrite e_recip_ok by assumption. change (1 / b) with (recip b).
      apply (up_bind up_v); [apply aset_lift| ]. intros w _. reflexivity.
  - intros [v big] _. reflexivity.
Qed.

Lemma e_lu_pivot n (A : mat R n) (vv : arr R n) k :
  lu_pivot (up_m A) (up_v vv) k = lu_pivot A vv k.
Proof.
  pose (u := fun s : R * nat => (Some (fst s), snd s)).
  transitivity (up_o (fun i : nat => i) (lu_pivot A vv k)); [ |destruct (lu_pivot A vv k); reflexivity].
  unfold lu_pivot. apply (up_bind u).
  - apply (for_lift0 u _ _ k n (0, k)). intros i [big im] _. unfold u at 1; cbn [fst snd].
    apply (up_bind Some); [apply aget_lift| ]. intros v _.
    apply (up_bind Some); [apply mget_lift| ]. intros x _. cbn. destruct (Rltb _ _); reflexivity.
  - intros [big im] _. reflexivity.
Qed.

Lemma e_lu_swap n (A : mat R n) k p : lu_swap (up_m A) k p = up_o up_m (lu_swap A k p).
Proof.
  unfold lu_swap. apply (for_lift0 up_m). intros j m _.
  apply (up_bind Some); [apply mget_lift| ]. intros a _.
  apply (up_bind Some); [apply mget_lift| ]. intros b _.
  apply (up_bind up_m); [apply mset_lift| ]. intros m' _. apply mset_lift.
Qed.

Lemma e_lu_eliminate n (A : mat R n) k p : mget A k k = Ok p -> p <> 0 ->
  lu_eliminate (up_m A) k = up_o up_m (lu_eliminate A k).
Proof.
  intros HA Hp. unfold lu_eliminate. apply (for_lift up_m (fun _ m => mget m k k = Ok p)); [exact HA| ].
  intros i m Hi Hm. split.
  - apply (up_bind Some); [apply mget_lift| ]. intros a _.
    apply (up_bind Some); [apply mget_lift| ]. intros b Hb. rewrite Hm in Hb. injection Hb as <-.
    rewrite e_div_ok by assumption. change (a / p) with (div a p).
    apply (up_bind up_m); [apply mset_lift| ]. intros m' _.
    apply (for_lift0 up_m). clear. intros j m _.
    apply (up_bind Some); [apply mget_lift| ]. intros x _.
    apply (up_bind Some); [apply mget_lift| ]. intros y _.
    apply (up_bind Some); [apply mget_lift| ]. intros z _. apply (mset_lift Some).
  - intros m'. intros H.
    apply bind_ok in H as (a & _ & H). apply bind_ok in H as (b & _ & H). apply bind_ok in H as (m1 & E1 & H).
    refine (for_ok_inv (fun _ m => mget m k k = Ok p) _ _ _ _ _ H _ _ _).
    + lia.
    + rewrite (mset_other _ _ _ _ _ k k _ E1) by (intros X; injection X; lia). exact Hm.
    + intros j s s' Hj Hs B. apply bind_ok in B as (x & _ & B). apply bind_ok in B as (y & _ & B).
      apply bind_ok in B as (z & _ & B). rewrite (mset_other _ _ _ _ _ k k _ B) by (intros X; injection X; lia). exact Hs.
Qed.

Lemma e_lu_step n k (st : mat R n * arr R n * R * arr nat n) :
  lu_step k (up_st st) = up_o up_st (lu_step k st).
Proof.
  destruct st as (((m & vv) & d) & ix). unfold lu_step, up_st at 1. cbv zeta.
  apply (up_bind (fun i : nat => i)).
  { rewrite e_lu_pivot. destruct (lu_pivot m vv k); reflexivity. }
  intros p _. pose (u := fun s : mat R n * arr R n * R => let '(m, v, d) := s in (up_m m, up_v v, Some d)).
  apply (up_bind u).
  { destruct (negb (Nat.eqb k p)); [ |reflexivity].
    apply (up_bind up_m); [apply e_lu_swap| ]. intros m' _.
    apply (up_bind Some); [apply aget_lift| ]. intros v _.
    apply (up_bind up_v); [apply aset_lift| ]. intros v' _. reflexivity. }
  intros ((m1 & v1) & d1) _. cbn [u].
  apply (up_bind (fun i : arr nat n => i)).
  { destruct (aset ix k p); reflexivity. }
  intros ix' _. apply (up_bind Some); [apply mget_lift| ]. intros q Hq.
  apply (up_bind up_m).
  { change (eqb (Some q) zero) with (eqb q zero). destruct (eqb q zero); [ |reflexivity].
    apply (mset_lift Some). }
  intros m2 E2. 
  assert (H2 : exists r, mget m2 k k = Ok r /\ r <> 0).
  { cbn [eqb R_Num zero] in E2. destruct (Reqb_spec q 0) as [_|Hn].
    - exists lit_1em40. split; [exact (mset_same _ _ _ _ _ _ E2)| ].
      pose proof (tiny_pos K OK). cbn. lra.
    - injection E2 as <-. exists q. auto. }
  destruct H2 as (r & Hr & Hrz).
  apply (up_bind up_m); [exact (e_lu_eliminate n m2 k r Hr Hrz)| ]. intros m3 _. reflexivity.
Qed.

Lemma e_lu_factor n (A : mat R n) : lu_factor (up_m A) = up_o up_lu (lu_factor A).
Proof.
  unfold lu_factor. cbv zeta. apply (up_bind up_v).
  { rewrite e_zero_v. apply e_lu_scaling. }
  intros vv _. apply (up_bind up_st).
  { apply (for_lift0 up_st _ _ 0 n (A, vv, 1, amake n 0%nat)). intros j st _. apply e_lu_step. }
  intros (((m & v) & d) & ix) _. reflexivity.
Qed.

(** ** The Gram-Schmidt loop *)
Section GS.
Context {n : nat} (sub_assign : arr R n -> arr R n -> arr R n) (scale : arr R n -> R -> arr R n)
  (sub_e : arr E n -> arr E n -> arr E n) (scale_e : arr E n -> E -> arr E n).
Hypothesis sub_spec : forall x y i, (i < n)%nat -> vfun (sub_assign x y) i = vfun x i - vfun y i.
Hypothesis scale_spec : forall x s i, (i < n)%nat -> vfun (scale x s) i = vfun x i * s.
Hypothesis sub_lift : forall x y, sub_e (up_v x) (up_v y) = up_v (sub_assign x y).
Hypothesis scale_lift : forall x s, scale_e (up_v x) (Some s) = up_v (scale x s).

Lemma e_qr_basis (cols q0 : mat R n) : ldet n (mfun cols) <> 0 ->
  qr_basis sub_e scale_e (up_m cols) (up_m q0) = up_o up_m (qr_basis sub_assign scale cols q0).
Proof.
  intros Hdet. unfold qr_basis.
  apply (for_lift up_m (fun i q => gs_inv (n:=n) (mfun cols) (mfun q) i)).
  { split; intros; lia. }
  intros i q [_ Hi] I.
  destruct (gs_step sub_assign scale sub_spec scale_spec cols q i Hdet Hi I) as (c & v & q' & Ec & El & Hv & Eq & I').
  split.
  - apply (up_bind up_v); [apply aget_lift| ]. intros c' Ec'. rewrite Ec in Ec'. injection Ec' as <-.
    apply (up_bind up_v).
    + unfold up_m. rewrite alist_lift, firstn_map.
      apply (for_in_lift up_v up_v). intros e s He.
      apply (up_bind up_v); [apply aget_lift| ]. intros c' _.
      apply (up_bind Some).
      * unfold up_v. rewrite !alist_lift. apply e_project. rewrite dot_ip.
        apply (In_nth _ _ e) in He as (l & Hl & He). rewrite firstn_length, alist_length in Hl.
        rewrite nth_firstn in He by lia.
        pose proof (gs_ortho _ _ _ I l l ltac:(lia) ltac:(lia)) as G. rewrite Nat.eqb_refl in G.
        rewrite <- He. intros Z. injection Z as Z.
        rewrite <- (ip_ext n (vfun (nth l (alist q) e)) (mfun q l) (vfun (nth l (alist q) e)) (mfun q l)) in G;
          [lra| | ]; intros a _; apply mfun_vfun_nth; lia.
      * intros p _. cbn [up_o]. f_equal. now rewrite scale_lift, sub_lift.
    + intros w Ew. rewrite Ew in El. injection El as ->. rewrite e_normalize; [apply aset_lift| ].
      rewrite norm2_ip. apply Rgt_not_eq. now apply sqrt_lt_R0.
  - intros s' Es. rewrite Ec in Es, El. cbn [bind] in Es, El. rewrite El in Es. cbn [bind] in Es.
    rewrite Eq in Es. injection Es as <-. exact I'.
Qed.
End GS.

End Lift.
