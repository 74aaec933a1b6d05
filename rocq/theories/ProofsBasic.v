(** * ProofsBasic: scalar division (C57), zero tests and equality (C58, C59),
      slice products (C60) *)

From Coq Require Import List Arith Lia Bool Ring ZArith Reals Lra.
From Verif Require Import Base Scalar Vec Mat2 Mat3 Mat4 Mat5 Mat6 Slices MatLoops MatOps
  Quat Transf DualQuat RingDet Spec Entries InstZ InstR RFacts ProofsQuat ProofsRigid.
Import ListNotations.
Open Scope sc_scope.

(** ** C57: division by a scalar *)
Section AnyScalar.
Context {T : Type} {nT : Num T} {sT : Signed T} {oT : POrd T} {fT : Float T}.

Lemma c57_div_entry : forall d (A : mat T (dimn d)) s i j, i < dimn d -> j < dimn d ->
  mget (d_div d A s) i j = Ok (mfun A i j / s).
Proof. intros. rewrite mfun_mget, d_div_entry by auto. reflexivity. Qed.

Lemma c57_vdiv_entry : forall d (v : arr T (dimn d)) s i, i < dimn d ->
  aget (d_vdiv d v s) i = Ok (vfun v i / s).
Proof. intros. rewrite vfun_aget, d_vdiv_entry by auto. reflexivity. Qed.

Lemma c57_quat_div_entry : forall (a : Quaternion T) s,
  qval (q_div_s a s) = (let '(w, x, y, z) := qval a in (w / s, x / s, y / s, z / s))
  /\ normalized (q_div_s a s) = false.
Proof. intros [w (x & y & z & []) f] s. split; reflexivity. Qed.

(** ** C58: is_zero and equality of vectors and matrices *)

Lemma aeqb_spec n (e : T -> T -> bool) (v w : arr T n) :
  aeqb e v w = true <-> forall i, i < n -> e (vfun v i) (vfun w i) = true.
Proof.
  induction n as [ |n IH].
  - cbn. split; [lia|reflexivity].
  - cbn [aeqb]. rewrite andb_true_iff, IH. split.
    + intros [A B] [ |i] Hi; [exact A|exact (B i ltac:(lia))].
    + intros H. split; [exact (H 0%nat ltac:(lia))|intros i Hi; exact (H (S i) ltac:(lia))].
Qed.

Lemma maeqb_spec n m (e : T -> T -> bool) (A B : arr (arr T n) m) :
  aeqb (aeqb e) A B = true <-> forall i j, i < m -> j < n -> e (mfun A i j) (mfun B i j) = true.
Proof.
  induction m as [ |m IH].
  - cbn. split; [lia|reflexivity].
  - cbn [aeqb]. rewrite andb_true_iff, IH, aeqb_spec. split.
    + intros [P Q] [ |i] j Hi Hj; [exact (P j Hj)|exact (Q i j ltac:(lia) Hj)].
    + intros H. split; [intros j Hj; exact (H 0%nat j ltac:(lia) Hj)|intros i j Hi Hj; exact (H (S i) j ltac:(lia) Hj)].
Qed.

(** for every element type, floats included *)
Lemma c58_is_zero : forall d (A : mat T (dimn d)),
  d_is_zero d A = true <-> forall i j, i < dimn d -> j < dimn d -> mfun A i j =? zero = true.
Proof.
  intros d A.
  assert (E : d_is_zero d A = aeqb (aeqb eqb) A (d_zeros d)) by (destruct d; reflexivity).
  rewrite E, maeqb_spec. split; intros H i j Hi Hj; specialize (H i j Hi Hj);
    rewrite d_zeros_entry in * by assumption; exact H.
Qed.

Lemma c58_vis_zero : forall d (v : arr T (dimn d)),
  d_vis_zero d v = true <-> forall i, i < dimn d -> vfun v i =? zero = true.
Proof.
  intros d A.
  assert (E : d_vis_zero d A = aeqb eqb A (d_vzeros d)) by (destruct d; reflexivity).
  rewrite E, aeqb_spec. split; intros H i Hi; specialize (H i Hi);
    rewrite d_vzeros_entry in * by assumption; exact H.
Qed.

(** derived [==] is equality when the element type's [==] is *)
Lemma c58_eq : (forall x y : T, x =? y = true <-> x = y) ->
  forall n (A B : mat T n), aeqb (aeqb eqb) A B = true <-> A = B.
Proof.
  intros E n A B. rewrite maeqb_spec. split.
  - intros H. apply mfun_ext. intros i j Hi Hj. apply E, H; assumption.
  - intros -> i j Hi Hj. apply E. reflexivity.
Qed.

Lemma c58_veq : (forall x y : T, x =? y = true <-> x = y) ->
  forall n (v w : arr T n), aeqb eqb v w = true <-> v = w.
Proof.
  intros E n A B. rewrite aeqb_spec. split.
  - intros H. apply vfun_ext. intros i Hi. apply E, H; assumption.
  - intros -> i Hi. apply E. reflexivity.
Qed.

Lemma c58_zeros_is_zero : (zero =? zero) = true -> forall d, d_is_zero d (d_zeros d) = true /\ d_vis_zero d (d_vzeros d) = true.
Proof.
  intros Z d. rewrite c58_is_zero, c58_vis_zero. split.
  - intros i j Hi Hj. rewrite d_zeros_entry by assumption. exact Z.
  - intros i Hi. rewrite d_vzeros_entry by assumption. exact Z.
Qed.

Lemma c58_ones : forall d i, i < dimn d -> aget (d_vones d) i = Ok one.
Proof. intros. rewrite vfun_aget, d_vones_entry by auto. reflexivity. Qed.

(** ** C59: equality of quaternions and dual quaternions *)

Lemma c59_eq_iff : (forall x y : T, x =? y = true <-> x = y) ->
  forall a b : Quaternion T, q_eqb a b = true <-> qval a = qval b /\ normalized a = normalized b.
Proof.
  intros E [w (x & y & z & []) f] [w' (x' & y' & z' & []) g]. unfold q_eqb. cbn.
  rewrite !andb_true_iff, !E, eqb_true_iff. split; [intros [[-> (-> & -> & -> & _)] ->]; auto| ].
  intros [X ->]. unfold qval, vfun in X. cbn in X. injection X as -> -> -> ->. repeat split; reflexivity.
Qed.

Lemma c59_dual_eq_iff : (forall x y : T, x =? y = true <-> x = y) ->
  forall a b : DualQuaternion T, dq_eqb a b = true <-> dqval a = dqval b /\ normalized (dq_real a) = normalized (dq_real b)
    /\ normalized (dq_dual a) = normalized (dq_dual b) /\ dq_normalized a = dq_normalized b.
Proof.
  intros E a b. unfold dq_eqb. rewrite !andb_true_iff, !(c59_eq_iff E), eqb_true_iff. unfold dqval, dq_real, dq_dual.
  split.
  - intros [[[A B] [C D]] F]. rewrite A, C. auto.
  - intros (A & B & C & D). apply pair_equal_spec in A as [A1 A2]. auto.
Qed.

(** unflagged values, the ones that arithmetic produces *)
Lemma c59_is_zero_partial : (forall x y : T, x =? y = true <-> x = y) ->
  forall a : Quaternion T, normalized a = false -> (q_is_zero a = true <-> qval a = (zero, zero, zero, zero)).
Proof.
  intros E a N. unfold q_is_zero. rewrite (c59_eq_iff E), N. cbn. intuition.
Qed.

Lemma c59_dual_is_zero_partial : (forall x y : T, x =? y = true <-> x = y) ->
  forall a : DualQuaternion T, normalized (dq_real a) = false -> normalized (dq_dual a) = false -> dq_normalized a = false ->
  (dq_is_zero a = true <-> dqval a = ((zero, zero, zero, zero), (zero, zero, zero, zero))).
Proof.
  intros E a N M F. unfold dq_is_zero. rewrite (c59_dual_eq_iff E), N, M, F. cbn. intuition.
Qed.

(** ** C60: slice products *)

Lemma c60_dot_panic_iff : forall x y : list T, dot x y = Panic <-> length x <> length y.
Proof.
  intros x y. unfold dot. destruct (Nat.eqb_spec (length x) (length y)) as [E|E]; split; try easy; contradiction.
Qed.

Lemma c60_project_panic_iff : forall x y : list T, project_x_over_y x y = Panic <-> length x <> length y.
Proof.
  intros x y. unfold project_x_over_y, dot. rewrite Nat.eqb_refl.
  destruct (Nat.eqb_spec (length x) (length y)) as [E|E]; cbn; split; try easy; contradiction.
Qed.
End AnyScalar.

(** [one() * one() == one()] is false *)
Lemma c59_eq_refuted : exists a b : Quaternion Z,
  a = q_mul q_one q_one /\ b = q_one /\ qval a = qval b /\ q_eqb a b = false.
Proof. eexists. eexists. repeat split; reflexivity. Qed.

Lemma c59_dual_eq_refuted : exists a b : DualQuaternion Z,
  a = dq_mul dq_one dq_one /\ b = dq_one /\ dqval a = dqval b /\ dq_eqb a b = false.
Proof. eexists. eexists. repeat split; reflexivity. Qed.

(** a zero value built from a quaternion is not [is_zero()] *)
Lemma c59_is_zero_refuted : exists a : DualQuaternion Z,
  a = dq_new_from_rotation q_zero /\ dqval a = dqval dq_zero /\ dq_is_zero a = false.
Proof. eexists. repeat split; reflexivity. Qed.


Section AnyRing.
Context {T : Type} {nT : Num T} {sT : Signed T}.
Variable RT : RingLaws T.
Let RT' : ring_theory zero one add mul sub neg (@eq T) := RT.
Add Ring TheRing : RT'.

Lemma iter_sum_from (l : list T) a : fold_left add l a = a + fold_left add l zero.
Proof.
  revert a. induction l as [ |x l IH]; intros a; cbn; [ring| ]. rewrite (IH (a + x)), (IH (zero + x)). ring.
Qed.
Lemma sumn_shift n (f : nat -> T) : sumn (S n) f = f 0%nat + sumn n (fun k => f (S k)).
Proof. induction n as [ |n IH]; [cbn; ring| ]. cbn [sumn] in IH |- *. rewrite IH. ring. Qed.

(** the inner product of the two slices *)
Lemma c60_dot : forall x y : list T, length x = length y ->
  dot x y = Ok (sumn (length x) (fun k => nth k x zero * nth k y zero)).
Proof.
  intros x y E. unfold dot. rewrite E, Nat.eqb_refl. f_equal. rewrite <- E.
  revert y E. induction x as [ |a x IH]; intros [ |b y] E; try discriminate; [reflexivity| ].
  injection E as E. cbn [combine map length]. rewrite sumn_shift. cbn [nth].
  unfold iter_sum in *. cbn [fold_left fst snd]. rewrite iter_sum_from, (IH y E). ring.
Qed.
End AnyRing.

Section Real.
Context {K : RConsts} (OK : RConstsOk K).
Local Open Scope R_scope.

Lemma c57_div_scale : forall d (A : mat R (dimn d)) s, s <> 0 ->
  d_scale d (d_div d A s) s = A /\ d_div d (d_scale d A s) s = A /\ d_div d A s = d_scale d A (/ s).
Proof.
  intros d A s Hs. repeat split; apply mfun_ext; intros i j Hi Hj;
    repeat first [rewrite d_scale_entry by assumption | rewrite d_div_entry by assumption];
    cbn [mul div R_Num]; field; exact Hs.
Qed.

Lemma c57_vdiv_scale : forall d (A : arr R (dimn d)) s, s <> 0 ->
  d_vscale d (d_vdiv d A s) s = A /\ d_vdiv d (d_vscale d A s) s = A /\ d_vdiv d A s = d_vscale d A (/ s).
Proof.
  intros d A s Hs. repeat split; apply vfun_ext; intros i Hi;
    repeat first [rewrite d_vscale_entry by assumption | rewrite d_vdiv_entry by assumption];
    cbn [mul div R_Num]; field; exact Hs.
Qed.

Lemma c57_quat_div_scale : forall (a : Quaternion R) s, s <> 0 ->
  qval (q_scale (q_div_s a s) s) = qval a /\ qval (q_div_s (q_scale a s) s) = qval a.
Proof.
  intros [w (x & y & z & []) f] s Hs. unfold qval, vfun. cbn. split; (refine (f_equal2 pair (f_equal2 pair (f_equal2 pair _ _) _) _)); field; exact Hs.
Qed.

Lemma R_eqb (x y : R) : eqb x y = true <-> x = y.
Proof. cbn. apply Reqb_true. Qed.

Lemma c58_is_zero_R : forall d (A : mat R (dimn d)) (v : arr R (dimn d)),
  (d_is_zero d A = true <-> A = d_zeros d) /\ (d_vis_zero d v = true <-> v = d_vzeros d).
Proof.
  intros d A v. split.
  - rewrite c58_is_zero. split.
    + intros H. apply mfun_ext. intros i j Hi Hj. rewrite d_zeros_entry by assumption. apply R_eqb, H; assumption.
    + intros -> i j Hi Hj. rewrite d_zeros_entry by assumption. apply R_eqb. reflexivity.
  - rewrite c58_vis_zero. split.
    + intros H. apply vfun_ext. intros i Hi. rewrite d_vzeros_entry by assumption. apply R_eqb, H; assumption.
    + intros -> i Hi. rewrite d_vzeros_entry by assumption. apply R_eqb. reflexivity.
Qed.

(** [project_x_over_y] is the coefficient of the orthogonal projection: what is
    left of x is orthogonal to y *)
Lemma c60_project : forall x y : list R, length x = length y ->
  (exists k, (k < length y)%nat /\ nth k y 0 <> 0) -> exists p, project_x_over_y x y = Ok p
  /\ sumn (length x) (fun k => (nth k x 0 - p * nth k y 0) * nth k y 0) = 0.
Proof.
  intros x y E (k & Hk & N). unfold project_x_over_y.
  rewrite (c60_dot R_ring x y E), (c60_dot R_ring y y eq_refl). cbn [bind]. eexists. split; [reflexivity| ].
  cbn [mul zero div R_Num]. rewrite <- E in *.
  set (n := length x) in *. clearbody n.
  assert (S : forall n p, sumn n (fun k => (nth k x 0 - p * nth k y 0) * nth k y 0)
            = sumn n (fun k => nth k x 0 * nth k y 0) - p * sumn n (fun k => nth k y 0 * nth k y 0)).
  { intros m p. induction m as [ |m IH]; cbn [sumn add zero R_Num] in *; [ring| ]. rewrite IH. ring. }
  rewrite S.
  assert (P : forall m, 0 <= sumn m (fun k => nth k y 0 * nth k y 0)
     /\ ((k < m)%nat -> 0 < sumn m (fun k => nth k y 0 * nth k y 0))).
  { induction m as [ |m [IH1 IH2]]; [cbn; split; [lra|lia]| ]. cbn [sumn add R_Num].
    pose proof (Rle_0_sqr (nth m y 0)) as Q. unfold Rsqr in Q. split; [lra| ]. intros Hm.
    destruct (Nat.eq_dec k m) as [->|D]; [ |specialize (IH2 ltac:(lia)); lra].
    pose proof (Rsqr_pos_lt _ N) as Q'. unfold Rsqr in Q'. lra. }
  specialize (P n). destruct P as [_ P]. specialize (P Hk). field. lra.
Qed.
End Real.

(** ** concrete cases *)
Section Examples.
Local Open Scope R_scope.

Example C57_case : d_div D2 [| [|1; 2|]; [|3; 4|] |] 2 = [| [|/ 2; 1|]; [|3 / 2; 2|] |].
Proof. apply mfun_ext. intros i j Hi Hj. cbn [dimn] in *. all_lt i Hi; all_lt j Hj; lazy -[Rdiv Rinv IZR]; lra. Qed.

Example C58_case : d_is_zero D2 [| [|0; 0|]; [|0; 1|] |] = false /\ d_is_zero D3 (d_zeros D3 : M33 R) = true.
Proof.
  split; [ |apply (c58_is_zero_R D3 _ (d_vzeros D3)); reflexivity].
  destruct (d_is_zero D2 _) eqn:E; [ |reflexivity].
  apply (c58_is_zero D2) with (i := 1%nat) (j := 1%nat) in E; [ |cbn; lia|cbn; lia]. apply R_eqb in E. destruct (R1_neq_R0 E).
Qed.

Example C59_case : q_is_zero (q_new_from 0 0 0 1 : Quaternion Z)%Z = false /\ q_is_zero (q_sub q_one q_one : Quaternion Z) = true.
Proof. split; reflexivity. Qed.

Example C60_case : dot [1; 2; 3]%Z [4; 5; 6]%Z = Ok 32%Z /\ dot [1; 2]%Z [4; 5; 6]%Z = Panic
  /\ exists p, project_x_over_y [1; 2] [2; 2] = Ok p /\ sumn 2 (fun k => (nth k [1; 2] 0 - p * nth k [2; 2] 0) * nth k [2; 2] 0) = 0.
Proof.
  split; [reflexivity|split; [reflexivity| ]]. apply (c60_project [1; 2] [2; 2]); [reflexivity| ].
  exists 0%nat. cbn. split; [lia|lra].
Qed.
End Examples.
