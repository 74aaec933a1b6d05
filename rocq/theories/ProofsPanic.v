(** * ProofsPanic: which calls panic (C54)

    Everything here holds for every scalar type, in particular for IEEE floats
    with their NaNs and infinities. *)

From Coq Require Import List Arith ZArith Reals Bool Lra Lia.
From Flocq Require Import Core IEEE754.BinarySingleNaN.
From Verif Require Import Base Scalar Vec Mat2 Mat3 Mat4 Mat5 Mat6 Slices MatLoops MatOps Quat Transf DualQuat RingDet Spec Entries LoopFacts ProofsLoops QRFacts ProofsQR InstZ InstR RFacts InstF.
Import ListNotations.
Open Scope sc_scope.

(** the call returns *)
Definition returns {A} (o : outcome A) : Prop := exists a, o = Ok a.

Lemma ret_not_panic {A} (o : outcome A) : returns o <-> o <> Panic.
Proof. split; [intros [a ->]; discriminate|destruct o as [a| ]; [exists a; reflexivity|congruence]]. Qed.

Lemma ret_ok {A} (a : A) : returns (Ok a).
Proof. exists a. reflexivity. Qed.

Lemma ret_bind {A B} (x : outcome A) (f : A -> outcome B) :
  returns x -> (forall a, x = Ok a -> returns (f a)) -> returns (bind x f).
Proof. intros [a E] H. rewrite E. cbn [bind]. apply H. exact E. Qed.

Lemma ret_for {S : Type} (body : nat -> S -> outcome S) lo hi s :
  (forall i s, lo <= i < hi -> returns (body i s)) -> returns (for_ lo hi s body).
Proof.
  intros H. destruct (Nat.le_gt_cases hi lo) as [L|L]; [rewrite for_empty by exact L; apply ret_ok| ].
  destruct (for_inv (fun _ _ => True) body lo hi s) as (s' & E & _); [lia|exact I| |exists s'; exact E].
  intros j s0 Hj _. destruct (H j s0 Hj) as [s1 E1]. exists s1. auto.
Qed.

Lemma ret_for_in {A S : Type} (body : A -> S -> outcome S) l s :
  (forall a s, In a l -> returns (body a s)) -> returns (for_in l s body).
Proof.
  revert s. induction l as [ |a l IH]; intros s H; cbn [for_in]; [apply ret_ok| ].
  apply ret_bind; [apply H; left; reflexivity|intros s1 _; apply IH; intros; apply H; right; assumption].
Qed.

Lemma ret_aget {U} n (v : arr U n) i : i < n -> returns (aget v i).
Proof. apply aget_ok. Qed.
Lemma ret_aset {U} n (v : arr U n) i x : i < n -> returns (aset v i x).
Proof. apply aset_ok. Qed.
Lemma ret_mget {U} n (m : mat U n) i j : i < n -> j < n -> returns (mget m i j).
Proof. intros. apply mget_ok_iff. auto. Qed.
Lemma ret_mset {U} n (m : mat U n) i j x : i < n -> j < n -> returns (mset m i j x).
Proof. apply mset_ok. Qed.

Ltac ret := repeat match goal with
  | |- returns (bind _ _) => apply ret_bind; [ |intros ? _]
  | |- returns (Ok _) => apply ret_ok
  | |- returns (for_ _ _ _ _) => apply ret_for; intros ? ? ?
  | |- returns (aget _ _) => apply ret_aget
  | |- returns (aset _ _ _) => apply ret_aset
  | |- returns (mget _ _ _) => apply ret_mget
  | |- returns (mset _ _ _ _) => apply ret_mset
  | |- returns (let '(_, _) := ?p in _) => destruct p
  | |- returns (if ?b then _ else _) => destruct b
  | |- returns (let _ := _ in _) => cbv zeta
  end.

Section Any.
Context {T : Type} {nT : Num T} {sT : Signed T} {oT : POrd T} {fT : Float T}.

Lemma nearly_zero_eqb (x : T) : nearly_zero x = false -> x =? zero = false.
Proof. unfold nearly_zero, nearly_equal. destruct (x =? zero); [discriminate|reflexivity]. Qed.

Lemma ret_submatrix4 (m : M44 T) i j : i < 4 -> j < 4 -> returns (m44_get_submatrix m (i, j)).
Proof. intros Hi Hj. destruct (submatrix_44 m i j Hi Hj) as (s & E & _). exists s. exact E. Qed.
Lemma ret_submatrix5 (m : M55 T) i j : i < 5 -> j < 5 -> returns (m55_get_submatrix m (i, j)).
Proof. intros Hi Hj. destruct (submatrix_55 m i j Hi Hj) as (s & E & _). exists s. exact E. Qed.
Lemma ret_submatrix6 (m : M66 T) i j : i < 6 -> j < 6 -> returns (m66_get_submatrix m (i, j)).
Proof. intros Hi Hj. destruct (submatrix_66 m i j Hi Hj) as (s & E & _). exists s. exact E. Qed.

(** ** matrices and vectors: always return *)

Lemma c54_inverse : forall d (A : mat T (dimn d)), returns (d_inverse d A).
Proof.
  intros d A. destruct d; cbn [d_inverse dimn];
    [unfold m22_inverse|unfold m33_inverse|unfold m44_inverse|unfold m55_inverse|unfold m66_inverse];
    ret; first [lia|apply ret_submatrix4; lia|apply ret_submatrix5; lia|apply ret_submatrix6; lia].
Qed.

Lemma length_alist {U} n (v : arr U n) : length (alist v) = n.
Proof. induction n as [ |n IH]; [reflexivity| ]. cbn. rewrite IH. reflexivity. Qed.

Lemma ret_dot (x y : list T) : length x = length y -> returns (dot x y).
Proof. intros E. unfold dot. rewrite E, Nat.eqb_refl. apply ret_ok. Qed.

Lemma ret_qr_basis n f g (cols q : arr (arr T n) n) : returns (qr_basis f g cols q).
Proof.
  unfold qr_basis. ret; try lia. apply ret_for_in. intros e qt _. ret; try lia.
  unfold project_x_over_y. ret; apply ret_dot; rewrite !length_alist; reflexivity.
Qed.

Lemma c54_qr : forall d (A : mat T (dimn d)), returns (d_qr d A).
Proof.
  intros d A. rewrite d_qr_eq. destruct (negb _); [ |apply ret_ok].
  apply ret_bind; [apply ret_qr_basis|intros q _]. apply ret_ok.
Qed.

Lemma c54_normalize : forall d (v : arr T (dimn d)), returns (d_vnormalize d v)
  /\ (d_vnormalize d v = Ok None <-> d_vnorm2 d v =? zero = true).
Proof.
  intros d v. split.
  - destruct d; cbn [d_vnormalize dimn];
    [unfold v2_normalize|unfold v3_normalize|unfold v4_normalize|unfold v5_normalize|unfold v6_normalize]; ret; lia.
  - destruct d; cbn [d_vnormalize d_vnorm2 dimn];
    [unfold v2_normalize|unfold v3_normalize|unfold v4_normalize|unfold v5_normalize|unfold v6_normalize];
    cbv zeta; destruct (_ =? zero); cbn [negb]; split; try reflexivity; try discriminate;
    destruct (for_ _ _ _ _); discriminate.
Qed.

(** ** lu *)

(** the facts about the comparisons that are needed; all scalar types have them
    (see below for the floats) *)
Hypothesis eq_zero : (zero : T) =? zero = true.
Hypothesis lt_zero : forall x : T, zero <? x = true -> x =? zero = false.
Hypothesis lt_trans : forall x y z : T, x <? y = true -> y <? z = true -> x <? z = true.

Lemma row_max n (A : mat T n) i k b : i < n -> k <= n -> (b = zero \/ zero <? b = true) ->
  exists b', for_ 0 k b (fun j big => x <- mget A i j ;; Ok (if big <? abs x then abs x else big)) = Ok b'
  /\ ((b = zero /\ forall j, j < k -> zero <? abs (mfun A i j) = false) /\ b' = zero
     \/ (zero <? b = true \/ exists j, j < k /\ zero <? abs (mfun A i j) = true) /\ zero <? b' = true).
Proof.
  intros Hi Hk Hb.
  destruct (for_inv (fun k b' => (b = zero /\ forall j, j < k -> zero <? abs (mfun A i j) = false) /\ b' = zero
     \/ (zero <? b = true \/ exists j, j < k /\ zero <? abs (mfun A i j) = true) /\ zero <? b' = true)
     (fun j big => x <- mget A i j ;; Ok (if big <? abs x then abs x else big)) 0 k b) as (b' & E & H).
  - lia.
  - destruct Hb as [->|Hb]; [left; split; [split; [reflexivity|intros; lia]|reflexivity]|right; auto].
  - intros j s Hj H. rewrite (mfun_mget n A i j) by lia. cbn [bind]. eexists. split; [reflexivity| ].
    destruct H as [[[-> H] ->]|[H P]].
    + destruct (zero <? abs (mfun A i j)) eqn:L.
      * right. split; [right; exists j; split; [lia|exact L]|exact L].
      * left. split; [split; [reflexivity| ]|reflexivity]. intros a Ha.
        destruct (Nat.eq_dec a j) as [->|N]; [exact L|apply H; lia].
    + right. split.
      * destruct H as [H|(a & Ha & H)]; [left; exact H|right; exists a; split; [lia|exact H]].
      * destruct (s <? abs (mfun A i j)) eqn:L; [apply (lt_trans _ _ _ P L)|exact P].
  - exists b'. auto.
Qed.

Lemma scaling_panic n (A : mat T n) vv : 0 < n ->
  (lu_scaling A vv = Panic <-> forall j, j < n -> zero <? abs (mfun A 0 j) = false).
Proof.
  intros Hn. destruct (row_max n A 0 n zero Hn (le_n n) (or_introl eq_refl)) as (b0 & E0 & H0).
  unfold lu_scaling. rewrite for_step by exact Hn. cbv beta iota zeta. rewrite E0. cbn [bind].
  destruct H0 as [[[_ H] ->]|[H P]].
  - rewrite eq_zero. cbn [bind]. tauto.
  - rewrite (lt_zero _ P). destruct (aset_ok n vv 0 (recip b0) Hn) as (vv1 & ->). cbn [bind].
    match goal with |- context [for_ 1 n ?s ?f] =>
      destruct (for_inv (fun _ (st : arr T n * T) => zero <? snd st = true) f 1 n s) as ([vv2 b2] & E2 & _) end.
    + lia.
    + exact P.
    + intros i [w b] Hi Pb. cbn [snd] in Pb.
      destruct (row_max n A i n b ltac:(lia) (le_n n) (or_intror Pb)) as (b' & E' & H'). rewrite E'. cbn [bind].
      assert (Pb' : zero <? b' = true).
      { destruct H' as [[[-> _] _]|[_ X]]; [ |exact X]. pose proof (lt_zero _ Pb). congruence. }
      rewrite (lt_zero _ Pb'). destruct (aset_ok n w i (recip b') ltac:(lia)) as (w' & ->). cbn [bind].
      eexists. split; [reflexivity|exact Pb'].
    + rewrite E2. cbn [bind]. split; [discriminate| ]. intros Z.
      destruct H as [H|(j & Hj & H)]; [pose proof (lt_zero _ H); congruence|rewrite Z in H by exact Hj; discriminate].
Qed.

Lemma ret_pivot n (lu : mat T n) vv k : k < n -> exists p, lu_pivot lu vv k = Ok p /\ k <= p < n.
Proof.
  intros Hk. unfold lu_pivot.
  match goal with |- context [for_ k n ?s ?f] =>
    destruct (for_inv (fun _ (st : T * nat) => k <= snd st < n) f k n s) as ([b p] & E & H) end.
  - lia.
  - cbn. lia.
  - intros j [b p] Hj H. cbn [snd] in H. destruct (ret_aget n vv j ltac:(lia)) as [v ->].
    destruct (ret_mget n lu j k ltac:(lia) Hk) as [x ->]. cbn [bind]. cbv zeta. eexists. split; [reflexivity| ].
    destruct (_ <? _); cbn; lia.
  - rewrite E. exists p. auto.
Qed.

Lemma ret_step n k (st : mat T n * arr T n * T * arr nat n) : k < n -> returns (lu_step k st).
Proof.
  intros Hk. destruct st as [[[lu vv] d] ix]. unfold lu_step. cbv zeta.
  destruct (ret_pivot n lu vv k Hk) as (p & -> & Hp'). cbn [bind].
  ret; unfold lu_swap, lu_eliminate; ret; lia.
Qed.

Lemma lu_panic_iff : forall d (A : mat T (dimn d)),
  d_lu d A = Panic <-> forall j, j < dimn d -> zero <? abs (mfun A 0 j) = false.
Proof.
  intros d A. assert (D : 0 < dimn d) by (destruct d; cbn; lia).
  assert (F : lu_factor A = Panic <-> forall j, j < dimn d -> zero <? abs (mfun A 0 j) = false).
  { unfold lu_factor. cbv zeta. rewrite <- (scaling_panic _ A (amake (dimn d) zero) D).
    destruct (lu_scaling A _) as [vv| ]; cbn [bind]; [ |tauto]. split; [ |discriminate].
    intros E. exfalso. revert E. apply ret_not_panic. ret. apply ret_step. lia. }
  rewrite <- F.
  destruct d; cbn [d_lu dimn] in *;
    [unfold m22_lu|unfold m33_lu|unfold m44_lu|unfold m55_lu|unfold m66_lu];
    destruct (lu_factor A) as [[[m s] ix]| ]; cbn [bind]; split; try reflexivity; discriminate.
Qed.
End Any.

Lemma c54_lu_panic_iff : forall T {nT : Num T} {sT : Signed T} {oT : POrd T} {fT : Float T},
  (zero : T) =? zero = true ->
  (forall x : T, zero <? x = true -> x =? zero = false) ->
  (forall x y z : T, x <? y = true -> y <? z = true -> x <? z = true) ->
  forall d (A : mat T (dimn d)),
  d_lu d A = Panic <-> forall j, j < dimn d -> zero <? abs (mfun A 0 j) = false.
Proof. intros T nT sT oT fT. exact lu_panic_iff. Qed.
Arguments c54_lu_panic_iff {T nT sT oT fT}.


Section Any.
Context {T : Type} {nT : Num T} {sT : Signed T} {oT : POrd T} {fT : Float T}.

(** ** slices *)

Lemma c54_find_max_min_panic_iff : forall l : list T,
  (find_max_min l = Panic <-> l = []) /\ (norm_inf l = Panic <-> l = []).
Proof.
  intros l. assert (H : find_max_min l = Panic <-> l = []).
  { destruct l as [ |s0 rest]; [split; reflexivity| ]. split; [ |discriminate]. intros E. exfalso. revert E.
    apply ret_not_panic. unfold find_max_min. ret. apply ret_for_in. intros [i e] [[[a b] c] e'] _.
    destruct (e <? b), (a <? e); apply ret_ok. }
  split; [exact H| ]. rewrite <- H. unfold norm_inf. destruct (find_max_min l); cbn [bind]; split; try reflexivity; discriminate.
Qed.

(** ** rotations and exponentials *)

Lemma v3_norm_cases (v : V3 T) :
  (v3_norm2 v =? zero = true /\ v3_normalize v = Ok None)
  \/ (v3_norm2 v =? zero = false /\ exists w, v3_normalize v = Ok (Some w)).
Proof.
  destruct (c54_normalize D3 v) as [[o E] N]. cbn [d_vnormalize d_vnorm2] in *. destruct (v3_norm2 v =? zero) eqn:Z.
  - left. split; [reflexivity| ]. apply N. reflexivity.
  - right. split; [reflexivity| ]. destruct o as [w| ]; [exists w; exact E| ]. apply N in E. discriminate.
Qed.

Lemma c54_rotation_panic_iff : forall theta (v : V3 T),
  (q_rotation theta v = Panic <-> v3_norm2 v =? zero = true)
  /\ (axis_angle v = Panic <-> v3_norm2 v =? zero = true).
Proof.
  intros theta v. unfold q_rotation, axis_angle.
  destruct (v3_norm_cases v) as [[-> ->]|[-> [w ->]]]; cbn; split; split; try reflexivity; discriminate.
Qed.

Lemma c54_matrix_exponential : forall (A : M33 T) (B : M44 T),
  returns (matrix_exponential A) /\ returns (matrix_exponential6 B).
Proof.
  assert (X : forall v : V3 T, nearly_zero (v3_norm2 v) = false -> returns (axis_angle v)).
  { intros v N. apply ret_not_panic. intros E. apply (c54_rotation_panic_iff zero v) in E.
    apply nearly_zero_eqb in N. congruence. }
  assert (M : forall A : M33 T, returns (matrix_exponential A)).
  { intros A. unfold matrix_exponential. cbv zeta. destruct (nearly_zero _) eqn:N; [apply ret_ok| ].
    apply ret_bind; [apply X, N|intros a _]. unfold sin_cos. apply ret_ok. }
  intros A B. split; [apply M| ]. unfold matrix_exponential6. cbv zeta. destruct (se3_get_parts B) as [s v].
  destruct (nearly_zero _) eqn:N; [apply ret_ok| ].
  apply ret_bind; [apply X, N|intros a _]. apply ret_bind; [apply M|intros b _]. unfold sin_cos. apply ret_ok.
Qed.

(** ** quaternions *)

Lemma c54_quat_div_panic_iff : forall p q : Quaternion T,
  q_div p q = Panic <-> normalized q = false /\ nearly_zero (q_abs2 q) = true.
Proof.
  intros p q. unfold q_div, q_inverse. destruct (normalized q); cbn; [split; [discriminate|intros [? _]; discriminate]| ].
  destruct (nearly_zero (q_abs2 q)); cbn; split; auto; try discriminate. intros [_ ?]. discriminate.
Qed.

Lemma c54_rot_trans_panic_iff : forall (q : Quaternion T) t,
  dq_new_from_rot_trans q t = Panic <-> normalized q = false /\ nearly_zero (q_norm2 q) = true.
Proof.
  intros q t. unfold dq_new_from_rot_trans, q_normalize. destruct (normalized q); cbn; [split; [discriminate|intros [? _]; discriminate]| ].
  destruct (nearly_zero (q_norm2 q)); cbn; split; auto; try discriminate. intros [_ ?]. discriminate.
Qed.

Lemma c54_dual_inverse_panic_iff : forall a : DualQuaternion T,
  dq_inverse a = Panic <->
  dq_normalized a = false /\ normalized (dq_real a) = false /\ nearly_zero (q_abs2 (dq_real a)) = true.
Proof.
  intros a. unfold dq_inverse, q_inverse, dq_real. destruct (dq_normalized a); cbn; [split; [discriminate|intros [? _]; discriminate]| ].
  destruct (normalized (q_real_ a)); cbn; [split; [discriminate|intros (_ & ? & _); discriminate]| ].
  destruct (nearly_zero _); cbn; split; auto; try discriminate. intros (_ & _ & ?). discriminate.
Qed.

Lemma c54_dual_div_panic_iff : forall a b : DualQuaternion T,
  dq_div a b = Panic <-> nearly_zero (q_abs2 (q_mul (dq_real b) (dq_real b))) = true.
Proof.
  intros a b. unfold dq_div. cbv zeta. change (dq_real b) with (q_real_ b).
  assert (F : forall p, q_div p (q_mul (q_real_ b) (q_real_ b)) = Panic
     <-> nearly_zero (q_abs2 (q_mul (q_real_ b) (q_real_ b))) = true).
  { intros p. rewrite c54_quat_div_panic_iff. split; [tauto|intros H; split; [reflexivity|exact H]]. }
  match goal with |- bind (q_div ?p _) _ = _ <-> _ => pose proof (F p) as F1; destruct (q_div p _) end; cbn [bind].
  - match goal with |- bind (q_div ?p _) _ = _ <-> _ => pose proof (F p) as F2; destruct (q_div p _) end; cbn [bind].
    + rewrite <- F1. split; discriminate.
    + rewrite <- F2. tauto.
  - rewrite <- F1. tauto.
Qed.

Lemma c54_screw_lerp_panic_iff : forall (a b : DualQuaternion T) t,
  dq_screw_lerp a b t = Panic <-> dq_normalized a = false /\
    (let s := if q_real (q_mul (dq_real a) (dq_real b)) <? zero then q_scale (dq_real a) (- one) else dq_real a in
     normalized s = false /\ nearly_zero (q_abs2 s) = true).
Proof.
  intros a b t. unfold dq_screw_lerp. cbv zeta.
  match goal with |- bind (dq_inverse ?s) _ = _ <-> _ => set (start := s) end.
  assert (E : bind (dq_inverse start) (fun i => Ok (dq_mul start (dq_pow (dq_mul i b) t))) = Panic <-> dq_inverse start = Panic).
  { destruct (dq_inverse start); cbn; split; try reflexivity; discriminate. }
  rewrite E, c54_dual_inverse_panic_iff. subst start. destruct (_ <? zero); reflexivity.
Qed.

Lemma c54_log_panic_iff : forall a : DualQuaternion T,
  dq_log a = Panic <-> dq_normalized a = true /\ q_get_axis (dq_real a) = None.
Proof.
  intros a. unfold dq_log, q_axis_angle. destruct (dq_normalized a); [ |split; [discriminate|intros [? _]; discriminate]].
  destruct (q_get_axis (dq_real a)); cbn; split; auto; try discriminate. intros [_ ?]. discriminate.
Qed.

Lemma c54_new_from_homogeneous_panic_iff : forall A : M44 T,
  dq_new_from_homogeneous A = Panic <->
  (let q := q_from_rotation (fst (get_parts_raw A)) in normalized q = false /\ nearly_zero (q_norm2 q) = true).
Proof.
  intros A. unfold dq_new_from_homogeneous. destruct (get_parts_raw A) as [r p]. cbn [fst]. cbv zeta.
  unfold q_normalize at 1. destruct (normalized (q_from_rotation r)) eqn:N; cbn [unwrap bind].
  - rewrite c54_rot_trans_panic_iff, N. tauto.
  - destruct (nearly_zero (q_norm2 (q_from_rotation r))) eqn:Z; cbn [negb unwrap bind]; [tauto| ].
    rewrite c54_rot_trans_panic_iff. cbn [normalized]. split; intros [? ?]; discriminate.
Qed.

Lemma c54_sin_panic_iff : forall a : Quaternion T,
  q_sin a = Panic <-> nearly_zero (q_abs2 (q_scale (q_argq a) (one + one))) = true.
Proof.
  intros a. unfold q_sin. cbv zeta. rewrite c54_quat_div_panic_iff. split; [tauto|intros H; split; [reflexivity|exact H]].
Qed.
End Any.

(** ** the same for floats *)
Section F.
Context {prec emax : Z} {Hp : Prec_gt_0 prec} {He : Prec_lt_emax prec emax}.
Notation fl := (binary_float prec emax).
Context {O : FOracle fl}.

Lemma Bltb_trans (x y z : fl) : Bltb x y = true -> Bltb y z = true -> Bltb x z = true.
Proof.
  destruct (is_finite x && is_finite y && is_finite z) eqn:F.
  - apply andb_true_iff in F as [F Fz]. apply andb_true_iff in F as [Fx Fy]. rewrite !Bltb_correct by assumption.
    destruct (Rlt_bool_spec (B2R x) (B2R y)); [ |discriminate].
    destruct (Rlt_bool_spec (B2R y) (B2R z)); [ |discriminate]. intros _ _. apply Rlt_bool_true. lra.
  - destruct x as [sx|sx| |sx mx ex Hx], y as [sy|sy| |sy my ey Hy], z as [sz|sz| |sz mz ez Hz];
      try discriminate F; try (intros; discriminate);
      try destruct sx; try destruct sy; try destruct sz; try (intros; discriminate); try reflexivity; intros; assumption.
Qed.

Lemma Bltb_zero (x : fl) : Bltb (B754_zero false) x = true -> Beqb x (B754_zero false) = false.
Proof. destruct x as [[]|[]| |[] m e H]; try discriminate; reflexivity. Qed.

(** [lu()] of a float matrix panics exactly when the first row consists of
    zeros and NaNs *)
Lemma c54_float_lu_panic_iff : forall d (A : mat fl (dimn d)),
  d_lu d A = Panic <-> forall j, j < dimn d -> mfun A 0 j = B754_nan \/ exists s, mfun A 0 j = B754_zero s.
Proof.
  intros d A. rewrite (c54_lu_panic_iff (nT := F_Num) (oT := F_POrd) (eq_refl true) Bltb_zero Bltb_trans).
  assert (E : forall x : fl, Bltb (B754_zero false) (Babs x) = false <-> x = B754_nan \/ exists s, x = B754_zero s).
  { intros [s|s| |s m e H].
    - split; [right; exists s; reflexivity|reflexivity].
    - split; [discriminate|intros [X|[? X]]; discriminate X].
    - split; [left; reflexivity|reflexivity].
    - split; [discriminate|intros [X|[? X]]; discriminate X]. }
  split; intros H j Hj; apply E, H, Hj.
Qed.
End F.

(** ** Concrete cases *)
Example C54_lu_case : d_lu (T := R) (fT := R_Float f64_consts) D2 [| [| 0; 0 |]; [| 1; 1 |] |]%R = Panic
  /\ returns (d_lu (T := R) (fT := R_Float f64_consts) D2 [| [| 0; 2 |]; [| 0; 0 |] |]%R).
Proof.
  assert (T : forall x y z : R, ltb x y = true -> ltb y z = true -> ltb x z = true).
  { intros x y z. cbn. unfold Rltb. destruct (Rlt_dec x y), (Rlt_dec y z), (Rlt_dec x z); try discriminate; auto. lra. }
  assert (Z : forall x : R, ltb zero x = true -> eqb x zero = false).
  { intros x. cbn. unfold Rltb. destruct (Rlt_dec 0 x); try discriminate. intros _. destruct (Reqb_spec x 0); [lra|reflexivity]. }
  assert (E : eqb (zero : R) zero = true) by (cbn; destruct (Reqb_spec 0 0); [reflexivity|lra]).
  split.
  - apply (c54_lu_panic_iff E Z T). intros j Hj. cbn [dimn] in Hj.
    all_lt j Hj; change (Rltb 0 (Rabs 0) = false); apply Rltb_false; rewrite Rabs_R0; lra.
  - apply ret_not_panic. intros P. pose proof (proj1 (c54_lu_panic_iff E Z T D2 _) P 1 ltac:(cbn; lia)) as L.
    change (Rltb 0 (Rabs 2) = false) in L. apply Rltb_false in L. rewrite Rabs_pos_eq in L; lra.
Qed.

(** dividing by zero panics, by one does not; the logarithm of a translation
    panics *)
Example C54_quat_cases :
  q_div (fT := R_Float f64_consts) (q_new_from 1 2 3 4)%R q_zero = Panic
  /\ returns (q_div (fT := R_Float f64_consts) (q_new_from 1 2 3 4)%R q_one)
  /\ q_rotation (fT := R_Float f64_consts) 1%R [| 0; 0; 0 |]%R = Panic.
Proof.
  assert (E : nearly_zero (fT := R_Float f64_consts) 0%R = true).
  { apply (nearly_zero_iff f64_consts_ok). rewrite Rabs_R0. apply (eps_pos f64_consts f64_consts_ok). }
  split; [ |split].
  - apply c54_quat_div_panic_iff. split; [reflexivity| ].
    replace (q_abs2 q_zero) with 0%R; [exact E| ]. cbn. ring.
  - eexists. reflexivity.
  - apply (c54_rotation_panic_iff (fT := R_Float f64_consts)). cbn.
    replace (0 * 0 + 0 * 0 + 0 * 0)%R with 0%R by ring. rewrite sqrt_0. destruct (Reqb_spec 0 0); [reflexivity|lra].
Qed.
