(** * ProofsSlices: slice helpers (C21, C22, C24) *)

From Coq Require Import List Arith Lia Bool ZArith Reals Lra.
From Verif Require Import Base Scalar Slices RingDet Spec LoopFacts InstZ InstR.
Import ListNotations.
Local Open Scope nat_scope.

(** ** C21 find_max_min *)

(** A (strict weak) order: what [<] is on integers, reals and non-NaN floats. *)
Record OrdLaws (T : Type) {oT : POrd T} : Prop := {
  ltb_irrefl : forall x : T, ltb x x = false;
  ltb_trans : forall x y z : T, ltb x y = true -> ltb y z = true -> ltb x z = true;
  ltb_cotrans : forall x y z : T, ltb x y = false -> ltb y z = false -> ltb x z = false
}.

Lemma Z_ord : OrdLaws Z.
Proof.
  split; cbn; intros.
  - apply Z.ltb_irrefl.
  - rewrite Z.ltb_lt in *. lia.
  - rewrite Z.ltb_ge in *. lia.
Qed.

Lemma R_ord : OrdLaws R.
Proof.
  split; cbn; intros.
  - apply Rltb_false. lra.
  - rewrite Rltb_true in *. lra.
  - rewrite Rltb_false in *. lra.
Qed.

Section MaxMin.
Context {T : Type} {oT : POrd T}.

(** the loop of [find_max_min] over the tail, from position [p] *)
Definition mm_body := (fun (ie : nat * T) (st : T * T * nat * nat) =>
   let ' (index, element) := ie in
   let ' (max, min, max_pos, min_pos) := st in
   let ' (min, min_pos) :=
     if ltb element min then (element, index) else (min, min_pos) in
   let ' (max, max_pos) :=
     if ltb max element then (element, index) else (max, max_pos) in
   Ok (max, min, max_pos, min_pos)).

Lemma mm_loop (P : list T -> T * T * nat * nat -> Prop) :
  forall rest pre st,
  (forall pre x st, P pre st -> exists st', mm_body (length pre, x) st = Ok st' /\ P (pre ++ [x]) st') ->
  P pre st ->
  exists st', for_in (combine (seq (length pre) (length rest)) rest) st mm_body = Ok st'
    /\ P (pre ++ rest) st'.
Proof.
  intros rest pre st Hs. revert pre st. induction rest as [ |x rest IH]; intros pre st H.
  - exists st. rewrite app_nil_r. auto.
  - cbn [length seq combine for_in]. destruct (Hs pre x st H) as (st1 & -> & H1). cbn [bind].
    destruct (IH (pre ++ [x]) st1 H1) as (st2 & E & H2).
    rewrite app_length in E. cbn in E. rewrite Nat.add_1_r in E.
    exists st2. split; [exact E| ]. now rewrite <- app_assoc in H2.
Qed.

Lemma nth_error_snoc (l : list T) x k y : nth_error (l ++ [x]) k = Some y ->
  (k < length l /\ nth_error l k = Some y) \/ (k = length l /\ y = x).
Proof.
  intros H. destruct (Nat.lt_ge_cases k (length l)) as [Hk|Hk].
  - rewrite nth_error_app1 in H by assumption. auto.
  - rewrite nth_error_app2 in H by assumption.
    destruct (k - length l) as [ |d] eqn:E; cbn in H.
    + inversion H. right. split; [lia|reflexivity].
    + destruct d; discriminate.
Qed.

(** For any type and comparison (even NaN): the positions point at the values. *)
Lemma c21_positions : forall (l : list T), l <> [] ->
  exists mm, find_max_min l = Ok mm
    /\ nth_error l (snd (max_ mm)) = Some (fst (max_ mm))
    /\ nth_error l (snd (min_ mm)) = Some (fst (min_ mm)).
Proof.
  intros [ |s0 rest] Hl; [congruence| ].
  destruct (mm_loop (fun l st => let ' (max, min, max_pos, min_pos) := st in
      nth_error l max_pos = Some max /\ nth_error l min_pos = Some min)
    rest [s0] (s0, s0, 0, 0)) as (st & E & H).
  - intros pre x (((mx, mn), mxp), mnp) [H1 H2]. unfold mm_body.
    assert (Q1 : forall k y, nth_error pre k = Some y -> nth_error (pre ++ [x]) k = Some y).
    { intros k y Hk. rewrite nth_error_app1; [assumption| ].
      apply nth_error_Some. congruence. }
    assert (Q2 : nth_error (pre ++ [x]) (length pre) = Some x).
    { rewrite nth_error_app2, Nat.sub_diag by lia. reflexivity. }
    destruct (ltb x mn), (ltb mx x); eexists; (split; [reflexivity| ]); split; auto.
  - split; reflexivity.
  - destruct st as (((mx, mn), mxp), mnp). cbn in E, H.
    eexists. unfold find_max_min. fold mm_body. rewrite E. cbn. split; [reflexivity| ].
    cbn. exact H.
Qed.

Lemma c21_empty_panics : find_max_min (@nil T) = Panic.
Proof. reflexivity. Qed.

Lemma c21_extremal : OrdLaws T -> forall (l : list T), l <> [] ->
  exists max max_pos min min_pos, find_max_min l = Ok (mkMaxMin (max, max_pos) (min, min_pos))
    (* they occur at the positions *)
    /\ nth_error l max_pos = Some max /\ nth_error l min_pos = Some min
    (* nothing is larger / smaller *)
    /\ (forall x, In x l -> ltb max x = false /\ ltb x min = false)
    (* and everything before is strictly smaller / larger *)
    /\ (forall k x, nth_error l k = Some x -> k < max_pos -> ltb x max = true)
    /\ (forall k x, nth_error l k = Some x -> k < min_pos -> ltb min x = true).
Proof.
  intros O [ |s0 rest] Hl; [congruence| ].
  assert (B : forall x y z, ltb y x = false -> ltb y z = true -> ltb x z = true).
  { intros x y z H1 H2. destruct (ltb x z) eqn:E; [reflexivity| ].
    rewrite (ltb_cotrans T O y x z H1 E) in H2. discriminate. }
  assert (B' : forall x y z, ltb z y = true -> ltb x y = false -> ltb z x = true).
  { intros x y z H1 H2. destruct (ltb z x) eqn:E; [reflexivity| ].
    rewrite (ltb_cotrans T O z x y E H2) in H1. discriminate. }
  assert (As : forall x y, ltb x y = true -> ltb y x = false).
  { intros x y H. destruct (ltb y x) eqn:E; [ |reflexivity].
    pose proof (ltb_trans T O x y x H E). rewrite (ltb_irrefl T O) in *. discriminate. }
  destruct (mm_loop (fun l st => let ' (max, min, max_pos, min_pos) := st in
      max_pos < length l /\ min_pos < length l /\
      nth_error l max_pos = Some max /\ nth_error l min_pos = Some min
      /\ (forall k x, nth_error l k = Some x -> ltb max x = false /\ ltb x min = false)
      /\ (forall k x, nth_error l k = Some x -> k < max_pos -> ltb x max = true)
      /\ (forall k x, nth_error l k = Some x -> k < min_pos -> ltb min x = true))
    rest [s0] (s0, s0, 0, 0)) as (st & E & H).
  - intros pre x (((mx, mn), mxp), mnp) (L1 & L2 & H1 & H2 & H3 & H4 & H5). unfold mm_body.
    assert (Q1 : forall k y, nth_error pre k = Some y -> nth_error (pre ++ [x]) k = Some y).
    { intros k y Hk. rewrite nth_error_app1; [assumption| ].
      apply nth_error_Some. congruence. }
    assert (Q2 : nth_error (pre ++ [x]) (length pre) = Some x).
    { rewrite nth_error_app2, Nat.sub_diag by lia. reflexivity. }
    assert (LL : length (pre ++ [x]) = S (length pre)) by (rewrite app_length; cbn; lia).
    destruct (ltb x mn) eqn:C1, (ltb mx x) eqn:C2; eexists; (split; [reflexivity| ]);
      rewrite LL; (split; [lia| ]); (split; [lia| ]); (split; [auto| ]); (split; [auto| ]);
      repeat split; intros;
      match goal with Hk : nth_error (pre ++ [x]) ?k = Some ?y |- _ =>
        apply nth_error_snoc in Hk as [[Hk1 Hk2]|[-> ->]] end;
      try lia; try (apply (ltb_irrefl T O));
      try (destruct (H3 _ _ Hk2) as [Ha Hb]); auto; eauto 3.
    all: try (apply As; eauto 3; fail).
    all: try (eapply (ltb_cotrans T O); eauto; fail).
  - cbn. repeat split; try lia; intros; try (destruct k as [ |k]; cbn in *;
      [injection H as <-|destruct k; discriminate]; apply (ltb_irrefl T O)).
  - destruct st as (((mx, mn), mxp), mnp). cbn in E, H.
    destruct H as (L1 & L2 & H1 & H2 & H3 & H4 & H5).
    exists mx, mxp, mn, mnp. unfold find_max_min. fold mm_body. rewrite E.
    split; [reflexivity| ]. split; [exact H1| ]. split; [exact H2| ].
    split; [ |split; [exact H4|exact H5]].
    intros x Hx. apply In_nth_error in Hx as (k & Hk). exact (H3 k x Hk).
Qed.

End MaxMin.

(** ** C22 norms of slices *)

Section Norms.
Context {T : Type} {nT : Num T} {sT : Signed T} {oT : POrd T}.

Lemma iter_sum_app (l1 l2 : list T) :
  iter_sum (l1 ++ l2) = fold_left add l2 (iter_sum l1).
Proof. unfold iter_sum. apply fold_left_app. Qed.

Lemma iter_sum_sumn (l : list T) :
  iter_sum l = sumn (length l) (fun i => nth i l zero).
Proof.
  induction l as [ |x l IH] using rev_ind; [reflexivity| ].
  rewrite iter_sum_app, app_length, Nat.add_1_r. cbn [fold_left sumn]. rewrite IH.
  rewrite app_nth2, Nat.sub_diag by lia. cbn [nth]. f_equal.
  apply sumn_ext. intros i Hi. rewrite app_nth1 by assumption. reflexivity.
Qed.

Lemma c22_norm_l : forall l : list T,
  norm_l l = sumn (length l) (fun i => nth i (map abs l) zero).
Proof.
  intros l. unfold norm_l. rewrite iter_sum_sumn, map_length. reflexivity.
Qed.

(** [norm_inf] is the largest element ... *)
Lemma c22_norm_inf_is_max : OrdLaws T -> forall l : list T, l <> [] ->
  exists m, norm_inf l = Ok m /\ In m l /\ forall x, In x l -> ltb m x = false.
Proof.
  intros O l Hl. destruct (c21_extremal O l Hl) as (mx & mxp & mn & mnp & E & H1 & _ & H3 & _).
  exists mx. unfold norm_inf. rewrite E. cbn. split; [reflexivity| ].
  split; [eapply nth_error_In; eauto| ]. intros x Hx. apply H3. assumption.
Qed.

(** ... hence the largest absolute value when no element is negative. Missing for
    the full C22: slices with a negative element, where it is false (below). *)
Lemma c22_norm_inf_partial : OrdLaws T -> forall l : list T, l <> [] ->
  (forall x, In x l -> abs x = x) ->
  exists m, norm_inf l = Ok m /\ In m (map abs l) /\ forall x, In x (map abs l) -> ltb m x = false.
Proof.
  intros O l Hl Ha. destruct (c22_norm_inf_is_max O l Hl) as (m & E & H1 & H2).
  exists m. split; [exact E| ].
  rewrite (map_ext_in abs (fun x => x) l Ha), map_id. auto.
Qed.

End Norms.

Lemma c22_norm_inf_refuted : exists (l : list Z) m,
  norm_inf l = Ok m /\ ~ (forall x, In x l -> (Z.abs x <= m)%Z).
Proof.
  exists [-5; 2]%Z, 2%Z. split; [reflexivity| ]. intros H.
  specialize (H (-5)%Z (or_introl eq_refl)). cbn in H. lia.
Qed.

(** it can even be negative on a non-zero vector *)
Lemma c22_norm_inf_negative_refuted : exists (l : list Z) m,
  norm_inf l = Ok m /\ (m < 0)%Z.
Proof. exists [-5; -2; -3]%Z, (-2)%Z. split; [reflexivity|lia]. Qed.

(** ** C24 comparison helpers *)

Section Compare.
Context {T : Type} {nT : Num T} {sT : Signed T} {oT : POrd T} {fT : Float T}.

(** Missing for the full C24: [zip] truncates, so a longer slice is accepted
    (refuted below); with equal lengths the helper decides what it claims. *)
Lemma c24_compare_vecs_partial : forall (a b : list T) eps, length a = length b ->
  compare_vecs a b eps = true <->
  forall i, i < length a -> nearly_equal (nth i a zero) (nth i b zero) eps = true.
Proof.
  intros a b eps. revert b. induction a as [ |x a IH]; intros [ |y b] L; cbn in L; try discriminate.
  - split; [intros _ i Hi; cbn in Hi; lia|reflexivity].
  - unfold compare_vecs. cbn. rewrite andb_true_iff. fold (compare_vecs a b eps).
    rewrite (IH b) by lia. split.
    + intros [H1 H2] [ |i] Hi; cbn; [exact H1|apply H2; lia].
    + intros H. split; [exact (H 0 ltac:(lia))|intros i Hi; exact (H (S i) ltac:(lia))].
Qed.

(** what it computes in general *)
Lemma c24_compare_vecs_prefix : forall (a b : list T) eps,
  compare_vecs a b eps = true <->
  forall i, i < length a -> i < length b -> nearly_equal (nth i a zero) (nth i b zero) eps = true.
Proof.
  intros a b eps. revert b. induction a as [ |x a IH]; intros [ |y b].
  1-3: cbn; split; [intros; lia|reflexivity].
  unfold compare_vecs. cbn. rewrite andb_true_iff. fold (compare_vecs a b eps).
  rewrite (IH b). split.
  - intros [H1 H2] [ |i] Hi Hj; cbn; [exact H1|apply H2; lia].
  - intros H. split; [exact (H 0 ltac:(lia) ltac:(lia))|
      intros i Hi Hj; exact (H (S i) ltac:(lia) ltac:(lia))].
Qed.

Lemma c24_compare_vecs_refuted : exists (a b : list T), length a <> length b /\
  forall eps, compare_vecs a b eps = true.
Proof. exists [zero], []. split; [discriminate|reflexivity]. Qed.

Lemma c24_check_elements : forall (v : list T) tol,
  check_elements v tol = true <-> exists x, In x v /\ nearly_equal x zero tol = true.
Proof.
  intros v tol. unfold check_elements.
  assert (G : forall v b, fold_left (fun r n => r || nearly_equal n zero tol) v b = true <->
     b = true \/ exists x, In x v /\ nearly_equal x zero tol = true).
  { clear. induction v as [ |y v IH]; intros b; cbn.
    - split; [auto|intros [H|(x & [] & _)]; exact H].
    - rewrite IH. rewrite orb_true_iff. split.
      + intros [[H|H]|(x & H1 & H2)]; eauto.
      + intros [H|(x & [->|H1] & H2)]; eauto. }
  rewrite G. split; [intros [H|H]; [discriminate|exact H]|auto].
Qed.

End Compare.

(** The tests in terms of real numbers. *)
Section CompareR.
Context {K : RConsts} (OK : RConstsOk K).
Local Open Scope R_scope.

Lemma c24_nearly_zero_R : forall x tol : R,
  nearly_equal x 0 tol = true <-> x = 0 \/ Rabs x < tol.
Proof.
  intros x tol. unfold nearly_equal. cbn [abs R_Signed eqb R_Num zero sub ltb R_POrd].
  destruct (Reqb_spec x 0) as [->|Hx].
  - split; auto.
  - replace (Reqb 0 0) with true by (symmetry; apply Reqb_true; reflexivity).
    cbn [orb]. rewrite Rltb_true, Rminus_0_r. split; [auto|intros [ | ]; [contradiction|assumption]].
Qed.

Lemma c24_compare_floats_R : forall a b t : R, compare_floats a b t = true <-> Rabs (a - b) < t.
Proof. intros. unfold compare_floats. cbn. apply Rltb_true. Qed.

Lemma c24_check_elements_R : forall (v : list R) tol,
  check_elements v tol = true <-> exists x, In x v /\ (x = 0 \/ Rabs x < tol).
Proof.
  intros v tol. rewrite c24_check_elements. split; intros (x & H1 & H2); exists x;
    (split; [exact H1| ]); apply c24_nearly_zero_R; exact H2.
Qed.

End CompareR.

(** ** Concrete cases *)

Example C21_example : find_max_min [3; -1; 7; 7; -1]%Z = Ok (mkMaxMin (7%Z, 2) ((-1)%Z, 1))
  /\ OrdLaws Z /\ OrdLaws R.
Proof. repeat split; try apply Z_ord; try apply R_ord. Qed.
Example C22_example : norm_l [3; -1; 7]%Z = 11%Z /\ norm_inf [3; 1; 7]%Z = Ok 7%Z
  /\ (forall x, In x [3; 1; 7]%Z -> abs x = x).
Proof. repeat split. intros x [<-|[<-|[<-|[]]]]; reflexivity. Qed.
Example C24_example : compare_vecs (fT := R_Float f64_consts) [0; 1]%R [0; 1]%R (/ 2)%R = true
  /\ compare_floats (1)%R (3/2)%R 1%R = true.
Proof.
  split.
  - apply c24_compare_vecs_partial; [reflexivity| ]. intros [ |[ |i]] Hi; cbn in Hi |- *; try lia;
    unfold nearly_equal; cbn [eqb R_Num zero one];
    match goal with |- context [Reqb ?a ?b] => destruct (Reqb_spec a b) end;
    try reflexivity; exfalso; auto.
  - apply c24_compare_floats_R. rewrite Rabs_left; lra.
Qed.
