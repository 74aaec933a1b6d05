(** * ProofsFloatDrift: long products of nearly unit quaternions on floats (C91) *)

From Coq Require Import List Arith ZArith Reals Bool Lra Lia.
From Flocq Require Import Core Relative Sterbenz IEEE754.BinarySingleNaN.
From Verif Require Import Base Scalar Vec Mat2 Mat3 Mat4 Mat5 Mat6 Slices MatLoops MatOps Quat Transf RingDet Spec LoopFacts Entries InstZ InstR RFacts LUFacts QRFacts ProofsRing ProofsQuat InstF FloatFacts ProofsFloat ProofsFloat2 ProofsFloatErr ProofsFloatInv ProofsFloatNorm ProofsFloatRot.
Local Open Scope R_scope.

(** ** the Euclidean norm of n numbers *)
Definition nrm (n : nat) (f : nat -> R) : R := sqrt (sq_sum n f).
Lemma nrm_pos n f : 0 <= nrm n f. Proof. apply sqrt_pos. Qed.
Lemma nrm_sq n f : nrm n f * nrm n f = sq_sum n f. Proof. apply sqrt_sqrt, sq_sum_pos. Qed.
Lemma nrm_le n f b : 0 <= b -> sq_sum n f <= b * b -> nrm n f <= b.
Proof. intros B H. unfold nrm. rewrite <- (sqrt_square b B). apply sqrt_le_1_alt, H. Qed.
Lemma nrm_ext n f g : (forall k, (k < n)%nat -> f k = g k) -> nrm n f = nrm n g.
Proof. intros H. unfold nrm, sq_sum. f_equal. apply sumnR_ext. intros k Hk. rewrite H by exact Hk. reflexivity. Qed.
Lemma sq_sum_plus n f g : sq_sum n (fun k => f k + g k) = sq_sum n f + 2 * sumn n (fun k => f k * g k) + sq_sum n g.
Proof. unfold sq_sum. induction n as [ |n IH]; cbn [sumn]; [cbn; ring| ]. rewrite IH. cbn [add R_Num]. ring. Qed.
Lemma nrm_cs n f g : Rabs (sumn n (fun k => f k * g k)) <= nrm n f * nrm n g.
Proof.
  pose proof (cauchy_schwarz n f g) as C. change (ip n f f) with (sq_sum n f) in C. change (ip n g g) with (sq_sum n g) in C.
  change (ip n f g) with (sumn n (fun k => f k * g k)) in C. rewrite <- !nrm_sq in C.
  pose proof (nrm_pos n f) as Pf. pose proof (nrm_pos n g) as Pg. assert (P : 0 <= nrm n f * nrm n g) by (apply Rmult_le_pos; assumption).
  set (s := sumn n _) in *. apply Rsqr_le_abs_0 in C || idtac.
  rewrite <- (Rabs_pos_eq (nrm n f * nrm n g)) by exact P. apply Rsqr_le_abs_0. unfold Rsqr. nra.
Qed.
Lemma nrm_plus n f g : nrm n (fun k => f k + g k) <= nrm n f + nrm n g.
Proof.
  pose proof (nrm_pos n f) as Pf. pose proof (nrm_pos n g) as Pg. apply nrm_le; [lra| ]. rewrite sq_sum_plus, <- !nrm_sq.
  pose proof (Rle_trans _ _ _ (Rle_abs _) (nrm_cs n f g)). nra.
Qed.
Lemma nrm_diff n f g : Rabs (nrm n f - nrm n g) <= nrm n (fun k => f k - g k).
Proof.
  assert (S : nrm n (fun k => g k - f k) = nrm n (fun k => f k - g k)).
  { unfold nrm, sq_sum. f_equal. apply sumnR_ext. intros k _. ring. }
  pose proof (nrm_plus n (fun k => f k - g k) g) as A. pose proof (nrm_plus n (fun k => g k - f k) f) as B.
  cbv beta in A, B. rewrite (nrm_ext n (fun k => f k - g k + g k) f) in A by (intros; ring). rewrite (nrm_ext n (fun k => g k - f k + f k) g) in B by (intros; ring).
  apply Rabs_le. lra.
Qed.
Lemma nrm_bound n f b : 0 <= b -> (forall k, (k < n)%nat -> Rabs (f k) <= b) -> nrm n f <= sqrt (INR n) * b.
Proof.
  intros B H. apply nrm_le; [apply Rmult_le_pos; [apply sqrt_pos|exact B]| ].
  replace (sqrt (INR n) * b * (sqrt (INR n) * b)) with (sqrt (INR n) * sqrt (INR n) * (b * b)) by ring. rewrite sqrt_sqrt by apply pos_INR.
  revert H. induction n as [ |n IH]; intros H; [cbn; lra| ]. rewrite S_INR. unfold sq_sum in *. cbn [sumn]. cbn [add R_Num].
  specialize (IH ltac:(intros; apply H; lia)). specialize (H n ltac:(lia)). apply Rabs_le_inv in H. nra.
Qed.

(** ** Hamilton's product *)
Definition hp (A B : nat -> R) (c : nat) : R := comp4 c (hamilton (h4 A) (h4 B)).
Ltac open4 := unfold sq_sum, hp; cbn [sumn]; lazy [add sub mul zero R_Num hamilton h4 comp4].
Lemma hp_norm A B : nrm 4 (hp A B) = nrm 4 A * nrm 4 B.
Proof. unfold nrm. rewrite <- sqrt_mult by apply sq_sum_pos. f_equal. open4. ring. Qed.
Lemma hp_sub A A' B c : hp (fun k => A k - A' k) B c = hp A B c - hp A' B c.
Proof. unfold hp. destruct c as [ |[ |[ |c]]]; lazy [add sub mul zero R_Num hamilton h4 comp4]; ring. Qed.
Lemma hmag_le A B c : (c < 4)%nat -> hmag A B c <= nrm 4 A * nrm 4 B.
Proof.
  intros Hc. assert (G : forall f g, Rabs (sumn 4 (fun k => f k * g k)) <= nrm 4 f * nrm 4 g) by (intros; apply nrm_cs).
  assert (Ea : nrm 4 (fun k => Rabs (A k)) = nrm 4 A).
  { unfold nrm, sq_sum. f_equal. apply sumnR_ext. intros k _. rewrite <- Rabs_mult. apply Rabs_pos_eq. nra. }
  set (s := fun k : nat => match c with 0%nat => k | 1%nat => match k with 0%nat => 1%nat | 1%nat => 0%nat | 2%nat => 3%nat | _ => 2%nat end
     | 2%nat => match k with 0%nat => 2%nat | 1%nat => 3%nat | 2%nat => 0%nat | _ => 1%nat end
     | _ => match k with 0%nat => 3%nat | 1%nat => 2%nat | 2%nat => 1%nat | _ => 0%nat end end).
  assert (Eb : nrm 4 (fun k => Rabs (B (s k))) = nrm 4 B).
  { unfold nrm, sq_sum. f_equal. cbn [sumn]. lazy [add zero R_Num]. rewrite <- !Rabs_mult, !Rabs_pos_eq by nra.
    unfold s. destruct c as [ |[ |[ |c]]]; ring. }
  specialize (G (fun k => Rabs (A k)) (fun k => Rabs (B (s k)))). rewrite Ea, Eb in G. eapply Rle_trans; [ |exact G].
  eapply Rle_trans; [ |apply Rle_abs]. cbn [sumn]. lazy [add zero R_Num]. unfold hmag, s. rewrite !Rabs_mult.
  destruct c as [ |[ |[ |c]]]; lra.
Qed.

(** ** the vector part of [a (0, v) conj(a)] *)
Definition sand (A V : nat -> R) (i : nat) : R := rot_exact A i 0 * V 0%nat + rot_exact A i 1 * V 1%nat + rot_exact A i 2 * V 2%nat.
Definition emb (V : nat -> R) (k : nat) : R := match k with 0%nat => 0 | S k => V k end.
Definition cj (A : nat -> R) (k : nat) : R := match k with 0%nat => A 0%nat | S _ => - A k end.
Ltac open3 := unfold sand, rot_exact, sq_sum, hp, emb, cj; cbn [sumn]; lazy [add sub mul zero R_Num hamilton h4 h4conj e4 comp4].
Lemma sand_hp A V i : (i < 3)%nat -> sand A V i = hp (hp A (emb V)) (cj A) (S i).
Proof. intros Hi. destruct i as [ |[ |[ |i]]]; [ | | |lia]; open3; ring. Qed.
Lemma sand_norm A V : nrm 3 (sand A V) = sq_sum 4 A * nrm 3 V.
Proof.
  unfold nrm. rewrite <- (sqrt_square (sq_sum 4 A)) by apply sq_sum_pos. rewrite <- sqrt_mult; [ |pose proof (sq_sum_pos 4 A); nra|apply sq_sum_pos].
  f_equal. open3. ring.
Qed.
Lemma sand_rotR w u V i : (i < 3)%nat -> let A := fun k => match k with 0%nat => w | S k => u k end in
  rotR w u V i = sand A V i + (1 - sq_sum 4 A) * V i.
Proof. intros Hi A. unfold A, rotR, crossR. destruct i as [ |[ |[ |i]]]; [ | | |lia]; open3; cbn; ring. Qed.
Lemma sand_hp_mul A B V i : (i < 3)%nat -> sand (hp A B) V i = sand A (sand B V) i.
Proof. intros Hi. destruct i as [ |[ |[ |i]]]; [ | | |lia]; open3; ring. Qed.
Lemma sand_plus A V W i : sand A (fun k => V k + W k) i = sand A V i + sand A W i.
Proof. unfold sand. ring. Qed.
Lemma nrm_cj A : nrm 4 (cj A) = nrm 4 A.
Proof. unfold nrm. f_equal. open3. ring. Qed.
Lemma nrm_emb V : nrm 4 (emb V) = nrm 3 V.
Proof. unfold nrm. f_equal. open3. ring. Qed.
Lemma nrm_tail f : nrm 3 (fun i => f (S i)) <= nrm 4 f.
Proof. unfold nrm. apply sqrt_le_1_alt. unfold sq_sum. cbn [sumn]. lazy [add zero R_Num]. nra. Qed.
Lemma sand_diff A B V : nrm 3 (fun i => sand A V i - sand B V i) <= nrm 4 (fun k => A k - B k) * (nrm 4 A + nrm 4 B) * nrm 3 V.
Proof.
  set (D := fun k => A k - B k).
  rewrite (nrm_ext 3 _ (fun i => (fun k => hp (hp D (emb V)) (cj A) k + hp (hp B (emb V)) (cj D) k) (S i))).
  - eapply Rle_trans; [exact (nrm_tail (fun k => hp (hp D (emb V)) (cj A) k + hp (hp B (emb V)) (cj D) k))| ]. eapply Rle_trans; [apply nrm_plus| ]. rewrite !hp_norm, !nrm_cj, nrm_emb. apply Req_le. ring.
  - intros i Hi. rewrite !sand_hp by exact Hi. unfold D. destruct i as [ |[ |[ |i]]]; [ | | |lia]; open3; ring.
Qed.
Lemma nrm_scal n c f : nrm n (fun k => c * f k) = Rabs c * nrm n f.
Proof.
  unfold nrm. rewrite <- (sqrt_Rsqr_abs c). rewrite <- sqrt_mult; [ |apply Rle_0_sqr|apply sq_sum_pos]. f_equal.
  unfold sq_sum, Rsqr. induction n as [ |n IH]; cbn [sumn]; [cbn; ring| ]. rewrite IH. cbn [add R_Num]. ring.
Qed.
Lemma comp_nrm n f k : (k < n)%nat -> Rabs (f k) <= nrm n f.
Proof. intros Hk. pose proof (sq_sum_ge n f k Hk) as S. rewrite <- nrm_sq in S. pose proof (nrm_pos n f). apply Rabs_le. split; nra. Qed.

Section F.
Context {prec emax : Z} {Hp : Prec_gt_0 prec} {He : Prec_lt_emax prec emax} {O : FOracle (binary_float prec emax)}.
Notation fl := (binary_float prec emax).
Notation uro := (uro (prec := prec)).
Notation eta := (eta (prec := prec) (emax := emax)).
Hypothesis Hp11 : (11 <= prec)%Z.
Hypothesis He4 : (4 * prec <= emax)%Z.

Definition qR (a : Quaternion fl) : nat -> R := fun k => B2R (qcomp k a).

Ltac ufin_go := lazymatch goal with
  | |- ufin (add _ _) _ => eapply ufin_add; [exact Hp11|exact He4|ufin_go..]
  | |- ufin (sub _ _) _ => eapply ufin_sub; [exact Hp11|exact He4|ufin_go..]
  | |- ufin (mul _ _) _ => eapply ufin_mul; [exact Hp11|exact He4|ufin_go..]
  | |- _ => eassumption
  end.

(** one product of quaternions of norm at most 2 *)
Lemma q_mul_step (a b : Quaternion fl) : (forall k, (k < 4)%nat -> is_finite (qcomp k a) = true) -> (forall k, (k < 4)%nat -> is_finite (qcomp k b) = true) ->
  nrm 4 (qR a) <= 2 -> nrm 4 (qR b) <= 2 ->
  (forall k, (k < 4)%nat -> is_finite (qcomp k (q_mul a b)) = true) /\
  nrm 4 (fun k => qR (q_mul a b) k - hp (qR a) (qR b) k) <= 803 / 100 * uro * (nrm 4 (qR a) * nrm 4 (qR b)) + / 1000 * uro.
Proof.
  intros Fa Fb Na Nb.
  assert (C : forall f k, (k < 4)%nat -> nrm 4 f <= 2 -> Rabs (f k) <= 2).
  { intros f k Hk N. pose proof (sq_sum_ge 4 f k Hk) as S. rewrite <- nrm_sq in S. pose proof (nrm_pos 4 f). apply Rabs_le. split; nra. }
  assert (FF : forall k, (k < 4)%nat -> is_finite (qcomp k (q_mul a b)) = true).
  { assert (La : forall k, (k < 4)%nat -> ufin (qcomp k a) (2, 0%nat)) by (intros k Hk; apply ufin_leaf; [apply Fa, Hk|apply (C (qR a) k Hk Na)|lra]).
    assert (Lb : forall k, (k < 4)%nat -> ufin (qcomp k b) (2, 0%nat)) by (intros k Hk; apply ufin_leaf; [apply Fb, Hk|apply (C (qR b) k Hk Nb)|lra]).
    pose proof (La 0%nat ltac:(lia)) as A0. pose proof (La 1%nat ltac:(lia)) as A1. pose proof (La 2%nat ltac:(lia)) as A2. pose proof (La 3%nat ltac:(lia)) as A3.
    pose proof (Lb 0%nat ltac:(lia)) as B0. pose proof (Lb 1%nat ltac:(lia)) as B1. pose proof (Lb 2%nat ltac:(lia)) as B2. pose proof (Lb 3%nat ltac:(lia)) as B3.
    clear - A0 A1 A2 A3 B0 B1 B2 B3 Hp11 He4. pose proof (emax_big He4 Hp11) as X || pose proof (emax_big Hp11 He4) as X.
    destruct a as [x0 (x1&x2&x3&[]) fa], b as [y0 (y1&y2&y3&[]) fb].
    lazy [qcomp vfun List.nth alist q0 Quat.q fst snd] in A0, A1, A2, A3, B0, B1, B2, B3.
    intros k Hk. destruct k as [ |[ |[ |[ |k]]]]; [ | | | |lia];
    lazy [q_mul q_new v3_add v3_scale v3_cross v3_dot qcomp vfun List.nth alist ix0 ix1 ix2 ahd atl acons anil fst snd q0 Quat.q q_real q_imag];
    (eapply (ufin_done Hp11 _ _ _ _ 100 100); [ufin_go|reflexivity|lra|cbn; lra|lra|lra]). }
  split; [exact FF| ]. pose proof (uro_small Hp11) as U. pose proof (uro_pos (prec := prec)) as P.
  pose proof (eta_tiny Hp11 He4) as T. assert (E0 : 0 <= eta) by apply eta_pos.
  pose proof (pow_lin Hp11 4 (401 / 100) ltac:(cbn; lra) ltac:(lra)) as P4. pose proof (pow_mono 0 4 ltac:(lia) : _ <= _ <= (1 + uro) ^ 4) as [_ P4']. rewrite pow_O in P4'.
  set (m := nrm 4 (qR a) * nrm 4 (qR b)) in *. assert (M : 0 <= m) by (apply Rmult_le_pos; apply nrm_pos).
  eapply Rle_trans; [apply (nrm_bound 4 _ (401 / 100 * uro * m + / 2000 * uro))| ].
  - assert (0 <= uro * m) by (apply Rmult_le_pos; lra). lra.
  - intros k Hk. pose proof (c87_q_mul_error a b k Hk (FF k Hk)) as E. cbv zeta in E. fold (hp (qR a) (qR b) k) in E. fold (qR (q_mul a b) k) in E. fold (qR a) in E. fold (qR b) in E.
    eapply Rle_trans; [exact E| ]. pose proof (hmag_le (qR a) (qR b) k Hk) as Hm. fold m in Hm.
    set (h := hmag (qR a) (qR b) k) in *. assert (0 <= h) by (unfold h, hmag; destruct k as [ |[ |[ |k]]]; repeat apply Rplus_le_le_0_compat; apply Rabs_pos).
    set (p := (1 + uro) ^ 4) in *. clearbody p h. apply Rplus_le_compat.
    + apply Rmult_le_compat; lra.
    + apply Rle_trans with (11 / 10 * (4 * eta)); [apply Rmult_le_compat_r; lra|lra].
  - replace (INR 4) with (2 * 2) by (cbn; lra). rewrite sqrt_square by lra. assert (0 <= uro * m) by (apply Rmult_le_pos; lra). lra.
Qed.

Definition near_unit (dl : R) (b : Quaternion fl) : Prop :=
  (forall k, (k < 4)%nat -> is_finite (qcomp k b) = true) /\ Rabs (nrm 4 (qR b) - 1) <= dl.

(** the exact product of the same numbers *)
Fixpoint hprod (bs : list (Quaternion fl)) (P : nat -> R) : nat -> R :=
  match bs with nil => P | (b :: bs)%list => hprod bs (hp P (qR b)) end.

Lemma c91_product_drift : forall dl (bs : list (Quaternion fl)) (a : Quaternion fl), near_unit dl a -> Forall (near_unit dl) bs ->
  let n := INR (length bs) in (n + 1) * (dl + 9 * uro) <= / 100 ->
  let p := fold_left q_mul bs a in
  near_unit (102 / 100 * (dl + n * (dl + 9 * uro))) p /\
  nrm 4 (fun k => qR p k - hprod bs (qR a) k) <= 9 * n * uro * (1 + dl) ^ length bs.
Proof.
  intros dl bs a Ha Hbs. pose proof (uro_small Hp11) as U. pose proof (uro_pos (prec := prec)) as P0.
  assert (D0 : 0 <= dl) by (eapply Rle_trans; [apply Rabs_pos|apply Ha]).
  assert (G : forall (bs : list (Quaternion fl)) (p : Quaternion fl) (Q : nat -> R) t (r : nat), Forall (near_unit dl) bs ->
    near_unit t p -> nrm 4 (fun k => qR p k - Q k) <= 9 * INR r * uro * (1 + dl) ^ r -> t + 102 / 100 * (INR (length bs) * (dl + 9 * uro)) <= / 50 ->
    near_unit (t + 102 / 100 * (INR (length bs) * (dl + 9 * uro))) (fold_left q_mul bs p) /\
    nrm 4 (fun k => qR (fold_left q_mul bs p) k - hprod bs Q k) <= 9 * INR (r + length bs) * uro * (1 + dl) ^ (r + length bs)).
  { clear bs Hbs a Ha. induction bs as [ |b bs IH]; intros p Q t r Hb Hpt E T.
    - cbn [fold_left hprod length INR]. rewrite Nat.add_0_r. replace (t + 102 / 100 * (0 * (dl + 9 * uro))) with t by ring. auto.
    - inversion Hb as [ |b' bs' [Fb Nb] Hbs]; subst. cbn [fold_left hprod]. destruct Hpt as [Fp Np].
      cbn [length] in T |- *. rewrite S_INR in T |- *. pose proof (pos_INR (length bs)) as L0.
      assert (T0 : 0 <= t) by (eapply Rle_trans; [apply Rabs_pos|exact Np]).
      assert (W : 0 <= INR (length bs) * (dl + 9 * uro)) by (apply Rmult_le_pos; lra).
      apply Rabs_le_inv in Np, Nb.
      destruct (q_mul_step p b Fp Fb ltac:(lra) ltac:(lra)) as [FF Er].
      pose proof (nrm_diff 4 (qR (q_mul p b)) (hp (qR p) (qR b))) as Dn. rewrite hp_norm in Dn.
      set (m := nrm 4 (qR p)) in *. set (c := nrm 4 (qR b)) in *.
      assert (Pm : 0 <= m) by apply nrm_pos. assert (Pc : 0 <= c) by apply nrm_pos.
      assert (mc : m * c <= 105 / 100). { apply Rle_trans with (102 / 100 * (1 + dl)); [apply Rmult_le_compat; lra|lra]. }
      assert (mc0 : 0 <= m * c) by (apply Rmult_le_pos; assumption).
      assert (Er' : nrm 4 (fun k => qR (q_mul p b) k - hp (qR p) (qR b) k) <= 85 / 10 * uro).
      { eapply Rle_trans; [exact Er| ]. assert (uro * (m * c) <= uro * (105 / 100)) by (apply Rmult_le_compat_l; lra). lra. }
      replace (t + 102 / 100 * ((INR (length bs) + 1) * (dl + 9 * uro))) with ((t + 102 / 100 * (dl + 9 * uro)) + 102 / 100 * (INR (length bs) * (dl + 9 * uro))) in * by ring.
      replace (r + S (length bs))%nat with (S r + length bs)%nat by lia.
      apply IH; try assumption.
      + split; [exact FF| ]. apply Rle_trans with (Rabs (nrm 4 (qR (q_mul p b)) - m * c) + Rabs (m * c - 1)).
        { replace (nrm 4 (qR (q_mul p b)) - 1) with ((nrm 4 (qR (q_mul p b)) - m * c) + (m * c - 1)) by ring. apply Rabs_triang. }
        assert (Rabs (m * c - 1) <= t + 102 / 100 * dl).
        { replace (m * c - 1) with ((m - 1) + m * (c - 1)) by ring. eapply Rle_trans; [apply Rabs_triang| ]. apply Rplus_le_compat.
          - apply Rabs_le. lra.
          - rewrite Rabs_mult, (Rabs_pos_eq m) by exact Pm. apply Rmult_le_compat; try lra; [apply Rabs_pos|apply Rabs_le; lra]. }
        lra.
      + apply Rle_trans with (nrm 4 (fun k => qR (q_mul p b) k - hp (qR p) (qR b) k) + nrm 4 (hp (fun k => qR p k - Q k) (qR b))).
        { eapply Rle_trans; [ |apply nrm_plus]. apply Req_le, nrm_ext. intros k Hk. rewrite hp_sub. ring. }
        rewrite hp_norm. fold c. set (d := nrm 4 (fun k => qR p k - Q k)) in *.
        assert (Pd : 0 <= d) by apply nrm_pos. cbn [pow]. rewrite S_INR.
        pose proof (pow_R1_Rle (1 + dl) r ltac:(lra)) as P1. set (pw := (1 + dl) ^ r) in *. clearbody pw.
        assert (d * c <= 9 * INR r * uro * pw * (1 + dl)).
        { apply Rmult_le_compat; try lra. }
        assert (1 <= (1 + dl) * pw) by nra.
        assert (9 * uro * 1 <= 9 * uro * ((1 + dl) * pw)) by (apply Rmult_le_compat_l; lra).
        replace (9 * (INR r + 1) * uro * ((1 + dl) * pw)) with (9 * INR r * uro * pw * (1 + dl) + 9 * uro * ((1 + dl) * pw)) by ring. lra. }
  intros n Hn p. assert (N0 : 0 <= n) by apply pos_INR.
  assert (W : 0 <= n * (dl + 9 * uro)) by (apply Rmult_le_pos; lra).
  destruct (G bs a (qR a) (102 / 100 * dl) 0%nat Hbs) as [G1 G2].
  - destruct Ha as [Fa Na]. split; [exact Fa|lra].
  - rewrite (nrm_ext 4 _ (fun _ => 0)) by (intros; ring). cbn [INR pow]. unfold nrm, sq_sum. cbn [sumn]. lazy [add zero R_Num]. replace (0 + 0 * 0 + 0 * 0 + 0 * 0 + 0 * 0) with 0 by ring. rewrite sqrt_0. lra.
  - fold n. lra.
  - fold p in G1, G2. fold n in G1. split; [ |exact G2]. replace (102 / 100 * (dl + n * (dl + 9 * uro))) with (102 / 100 * dl + 102 / 100 * (n * (dl + 9 * uro))) by ring. exact G1.
Qed.

Lemma near_sq dl (a : Quaternion fl) : near_unit dl a -> dl <= / 100 -> Rabs (sq_sum 4 (qR a) - 1) <= 201 / 100 * dl.
Proof.
  intros [_ N] D. rewrite <- nrm_sq. set (n := nrm 4 (qR a)) in *. replace (n * n - 1) with ((n - 1) * (n + 1)) by ring.
  rewrite Rabs_mult. rewrite Rmult_comm. apply Rmult_le_compat; try apply Rabs_pos; try exact N. apply Rabs_le_inv in N. apply Rabs_le. lra.
Qed.

(** every product of up to [n] normalized quaternions is a rotation up to a small multiple of [n u] *)
Lemma c91_product_rotation : forall dl (bs : list (Quaternion fl)) (a : Quaternion fl), near_unit dl a -> Forall (near_unit dl) bs ->
  let n := INR (length bs) in (n + 1) * (dl + 9 * uro) <= / 250 ->
  let p := fold_left q_mul bs a in let X := fun i j => B2R (mfun (q_to_rotation p) i j) in
  (forall i j, (i < 3)%nat -> (j < 3)%nat -> is_finite (mfun (q_to_rotation p) i j) = true) /\
  (forall i j, (i < 3)%nat -> (j < 3)%nat ->
    Rabs (X 0%nat i * X 0%nat j + X 1%nat i * X 1%nat j + X 2%nat i * X 2%nat j - (if Nat.eqb i j then 1 else 0)) <= 42 / 10 * (n + 1) * (dl + 9 * uro) + 25 * uro) /\
  is_finite (m33_det (q_to_rotation p)) = true /\ Rabs (B2R (m33_det (q_to_rotation p)) - 1) <= 63 / 10 * (n + 1) * (dl + 9 * uro) + 108 * uro.
Proof.
  intros dl bs a Ha Hbs n Hn p X. pose proof (uro_pos (prec := prec)) as P0.
  destruct (c91_product_drift dl bs a Ha Hbs ltac:(fold n; lra)) as [G _]. fold n p in G.
  assert (N0 : 0 <= n) by apply pos_INR. assert (D0 : 0 <= dl) by (eapply Rle_trans; [apply Rabs_pos|apply Ha]).
  set (e := (n + 1) * (dl + 9 * uro)) in *. assert (T : 102 / 100 * (dl + n * (dl + 9 * uro)) <= 102 / 100 * e) by (unfold e; lra). assert (Pe : 0 <= e) by (unfold e; apply Rmult_le_pos; lra).
  pose proof (near_sq _ _ G ltac:(lra)) as Q.
  destruct (c87_unit_rotation Hp11 He4 p (207 / 100 * e) ltac:(lra) (proj1 G) ltac:(change (Rabs (sq_sum 4 (qR p) - 1) <= 207 / 100 * e); lra)) as (R1 & R2 & R3 & R4).
  cbv zeta in R2. split; [exact R1|split; [ |split; [exact R3| ]]].
  - intros i j Hi Hj. eapply Rle_trans; [exact (R2 i j Hi Hj)| ]. fold e. assert (0 <= e) by (unfold e; apply Rmult_le_pos; lra).
    replace (42 / 10 * (n + 1) * (dl + 9 * uro)) with (42 / 10 * e) by (unfold e; ring). lra.
  - eapply Rle_trans; [exact R4| ]. assert (0 <= e) by (unfold e; apply Rmult_le_pos; lra).
    replace (63 / 10 * (n + 1) * (dl + 9 * uro)) with (63 / 10 * e) by (unfold e; ring). lra.
Qed.

(** the matrix of the product is the product of the matrices *)
Lemma rot_entry_err dl (a : Quaternion fl) i j : near_unit dl a -> dl <= / 220 -> (i < 3)%nat -> (j < 3)%nat ->
  is_finite (mfun (q_to_rotation a) i j) = true /\ Rabs (B2R (mfun (q_to_rotation a) i j) - rot_exact (qR a) i j) <= 41 / 10 * uro.
Proof.
  intros Ha Hd Hi Hj. pose proof (near_sq dl a Ha ltac:(lra)) as Q. destruct Ha as [Fa _].
  pose proof (uro_small Hp11) as U. pose proof (uro_pos (prec := prec)) as P0.
  assert (Q' : Rabs (sq_sum 4 (fun k => B2R (qcomp k a)) - 1) <= / 100) by (change (Rabs (sq_sum 4 (qR a) - 1) <= / 100); lra).
  pose proof (unit_rot_finite Hp11 He4 a (/ 100) Fa Q' ltac:(lra) i j Hi Hj) as F. split; [exact F| ].
  destruct (unit_rot_uerr Hp11 He4 a (/ 100) Q' ltac:(lra) i j Hi Hj) as (_ & _ & E). specialize (E F). destruct E as [_ E].
  change (rot_exact (fun k => B2R (qcomp k a)) i j) with (rot_exact (qR a) i j) in E.
  pose proof (pow_lin Hp11 4 (401 / 100) ltac:(cbn; lra) ltac:(lra)) as P4. pose proof (pow_mono 0 4 ltac:(lia) : _ <= _ <= (1 + uro) ^ 4) as [_ P4']. rewrite pow_O in P4'.
  eapply Rle_trans; [exact E| ]. set (q := (1 + uro) ^ 4) in *. clearbody q.
  assert (q * (/ 1000 * uro) <= 11 / 10 * (/ 1000 * uro)) by (apply Rmult_le_compat_r; lra). lra.
Qed.

Lemma c91_compose_matrices : forall dl (a b : Quaternion fl), near_unit dl a -> near_unit dl b -> dl + 9 * uro <= / 500 ->
  forall i j, (i < 3)%nat -> (j < 3)%nat ->
  Rabs (B2R (mfun (q_to_rotation (q_mul a b)) i j) - sumn 3 (fun k => B2R (mfun (q_to_rotation a) i k) * B2R (mfun (q_to_rotation b) k j))) <= 50 * uro.
Proof.
  intros dl a b Ha Hb Hd i j Hi Hj. pose proof (uro_small Hp11) as U. pose proof (uro_pos (prec := prec)) as P0.
  assert (D0 : 0 <= dl) by (eapply Rle_trans; [apply Rabs_pos|apply Ha]).
  destruct (c91_product_drift dl (b :: nil)%list a Ha ltac:(constructor; [exact Hb|constructor]) ltac:(cbn; lra)) as [G D]. cbn [fold_left length INR hprod pow] in G, D.
  assert (D' : nrm 4 (fun k => qR (q_mul a b) k - hp (qR a) (qR b) k) <= 91 / 10 * uro) by (eapply Rle_trans; [exact D|nra]). clear D.
  assert (Gd : 102 / 100 * (dl + 1 * (dl + 9 * uro)) <= / 240) by lra.
  destruct (rot_entry_err (102 / 100 * (dl + 1 * (dl + 9 * uro))) (q_mul a b) i j G ltac:(lra) Hi Hj) as [_ E1].
  set (p := q_mul a b) in *. destruct G as [_ Np]. apply Rabs_le_inv in Np. pose proof (proj2 Ha) as Na. pose proof (proj2 Hb) as Nb. apply Rabs_le_inv in Na, Nb.
  set (H := hp (qR a) (qR b)) in *. assert (NH : nrm 4 H <= 101 / 100).
  { unfold H. rewrite hp_norm. apply Rle_trans with (1002 / 1000 * (1002 / 1000)); [apply Rmult_le_compat; try apply nrm_pos; lra|lra]. }
  assert (E2 : Rabs (rot_exact (qR p) i j - rot_exact H i j) <= 19 * uro).
  { set (V := fun k => if Nat.eqb k j then 1 else 0).
    assert (SV : forall A, sand A V i = rot_exact A i j) by (intros A; unfold sand, V; destruct j as [ |[ |[ |j]]]; [ | | |lia]; cbn [Nat.eqb]; ring).
    rewrite <- !SV. eapply Rle_trans; [apply (comp_nrm 3 (fun i => sand (qR p) V i - sand H V i) i Hi)| ]. eapply Rle_trans; [apply sand_diff| ].
    assert (NV : nrm 3 V = 1).
    { unfold nrm. replace (sq_sum 3 V) with 1; [apply sqrt_1| ]. unfold sq_sum, V. cbn [sumn]. lazy [add zero R_Num]. destruct j as [ |[ |[ |j]]]; [ | | |lia]; cbn [Nat.eqb]; ring. }
    rewrite NV, Rmult_1_r. apply Rle_trans with (91 / 10 * uro * (202 / 100)); [apply Rmult_le_compat; try apply nrm_pos; try lra|lra].
    pose proof (nrm_pos 4 (qR p)). pose proof (nrm_pos 4 H). lra. }
  assert (E3 : rot_exact H i j = sumn 3 (fun k => rot_exact (qR a) i k * rot_exact (qR b) k j)).
  { set (V := fun k => if Nat.eqb k j then 1 else 0).
    assert (SV : forall A i, sand A V i = rot_exact A i j) by (intros A i'; unfold sand, V; destruct j as [ |[ |[ |j]]]; [ | | |lia]; cbn [Nat.eqb]; ring).
    rewrite <- SV. unfold H. rewrite sand_hp_mul by exact Hi. unfold sand at 1. rewrite !SV. cbn [sumn]. lazy [add zero R_Num]. ring. }
  assert (E4 : Rabs (sumn 3 (fun k => B2R (mfun (q_to_rotation a) i k) * B2R (mfun (q_to_rotation b) k j)) - sumn 3 (fun k => rot_exact (qR a) i k * rot_exact (qR b) k j)) <= sumn 3 (fun _ => 84 / 10 * uro)).
  { apply sumn_Rabs. intros k Hk. destruct (rot_entry_err dl a i k Ha ltac:(lra) Hi Hk) as [_ Ea]. destruct (rot_entry_err dl b k j Hb ltac:(lra) Hk Hj) as [_ Eb].
    pose proof (rot_bound (qR a) i k Hi Hk) as Ba. pose proof (rot_bound (qR b) k j Hk Hj) as Bb.
    pose proof (near_sq dl a Ha ltac:(lra)) as Qa. pose proof (near_sq dl b Hb ltac:(lra)) as Qb. apply Rabs_le_inv in Qa, Qb.
    set (x := B2R (mfun (q_to_rotation a) i k)) in *. set (y := B2R (mfun (q_to_rotation b) k j)) in *. set (x' := rot_exact (qR a) i k) in *. set (y' := rot_exact (qR b) k j) in *.
    replace (x * y - x' * y') with ((x - x') * y' + (x' * (y - y') + (x - x') * (y - y'))) by ring.
    eapply Rle_trans; [apply Rabs_triang| ]. eapply Rle_trans; [apply Rplus_le_compat_l, Rabs_triang| ]. rewrite !Rabs_mult.
    assert (M1 : Rabs (x - x') * Rabs y' <= 41 / 10 * uro * (1005 / 1000)) by (apply Rmult_le_compat; try apply Rabs_pos; lra).
    assert (M2 : Rabs x' * Rabs (y - y') <= 1005 / 1000 * (41 / 10 * uro)) by (apply Rmult_le_compat; try apply Rabs_pos; lra).
    assert (M3 : Rabs (x - x') * Rabs (y - y') <= / 450 * (41 / 10 * uro)) by (apply Rmult_le_compat; try apply Rabs_pos; lra). lra. }
  assert (E5 : sumn 3 (fun _ => 84 / 10 * uro) = 252 / 10 * uro) by (cbn [sumn]; lazy [add zero R_Num]; lra). rewrite E5, <- E3 in E4. clear E3.
  set (s := sumn 3 (fun k => B2R (mfun (q_to_rotation a) i k) * B2R (mfun (q_to_rotation b) k j))) in *. replace (B2R (mfun (q_to_rotation p) i j) - s) with ((B2R (mfun (q_to_rotation p) i j) - rot_exact (qR p) i j) + ((rot_exact (qR p) i j - rot_exact H i j) + (rot_exact H i j - s))) by ring.
  eapply Rle_trans; [apply Rabs_triang| ]. eapply Rle_trans; [apply Rplus_le_compat_l, Rabs_triang| ]. rewrite (Rabs_minus_sym _ s). lra.
Qed.

(** rotation of a vector: distance to the exact sandwich product *)
Lemma rotate_err (b : Quaternion fl) (v : V3 fl) dl : near_unit dl b -> dl <= / 220 ->
  (forall k, (k < 3)%nat -> is_finite (vfun v k) = true /\ Rabs (B2R (vfun v k)) <= bpow radix2 (emax - 9)) ->
  let V := fun k => B2R (vfun v k) in
  (forall k, (k < 3)%nat -> is_finite (vfun (q_mul_v b v) k) = true) /\
  nrm 3 (fun k => B2R (vfun (q_mul_v b v) k) - sand (qR b) V k) <= (201 / 100 * dl + 192 * uro) * nrm 3 V + 13 * eta.
Proof.
  intros Hb Hd Hv V. pose proof (near_sq dl b Hb ltac:(lra)) as Q. destruct Hb as [Fb _].
  assert (Q' : Rabs (sq_sum 4 (fun k => B2R (qcomp k b)) - 1) <= / 100) by (change (Rabs (sq_sum 4 (qR b) - 1) <= / 100); lra).
  destruct (c87_rotate_length Hp11 He4 b v (/ 100) ltac:(lra) Fb Q' Hv) as [FR _]. split; [exact FR| ].
  set (w := B2R (q0 b)). set (u := fun k => B2R (vfun (Quat.q b) k)). set (n := nrm 3 V).
  pose proof (unit_sum b (/ 100) Q' ltac:(lra)) as Us. change (Rabs w + Rabs (u 0%nat) + Rabs (u 1%nat) + Rabs (u 2%nat) <= 201 / 100) in Us.
  pose proof (mag3_norm V) as Mv. fold (nrm 3 V) in Mv. fold n in Mv. assert (N0 : 0 <= n) by apply nrm_pos.
  pose proof (uro_small Hp11) as U. pose proof (uro_pos (prec := prec)) as P. pose proof (eta_tiny Hp11 He4) as T. assert (E0 : 0 <= eta) by apply eta_pos.
  set (X := fun k => B2R (vfun (q_mul_v b v) k)).
  assert (C : forall k, (k < 3)%nat -> Rabs (X k - rotR w u V k) <= 1107 / 10 * uro * n + 71 / 10 * eta).
  { intros k Hk. eapply Rle_trans; [exact (c87_q_mul_v_error b v k Hk (FR k Hk))| ]. fold w u V.
    pose proof (pow_lin Hp11 7 (703 / 100) ltac:(cbn; lra) ltac:(lra)) as P7. pose proof (pow_mono 0 7 ltac:(lia) : _ <= _ <= (1 + uro) ^ 7) as [_ P7'].
    rewrite pow_O in P7'. set (p := (1 + uro) ^ 7) in *. clearbody p.
    set (s := Rabs w + mag3 u). assert (Hs : 0 <= s <= 201 / 100).
    { unfold s, mag3. split; [ |lra]. repeat apply Rplus_le_le_0_compat; apply Rabs_pos. } clearbody s.
    assert (M0 : 0 <= mag3 V) by (unfold mag3; repeat apply Rplus_le_le_0_compat; apply Rabs_pos).
    set (m := mag3 V) in *. clearbody m n. clear Us FR.
    assert (S2 : 0 <= 1 + 2 * s ^ 2 <= 909 / 100) by nra.
    assert (A1 : 0 <= m * (1 + 2 * s ^ 2) <= 17321 / 10000 * n * (909 / 100)) by (split; [apply Rmult_le_pos; lra|apply Rmult_le_compat; lra]).
    assert (A2 : (p - 1) * (m * (1 + 2 * s ^ 2)) <= 703 / 100 * uro * (17321 / 10000 * n * (909 / 100))) by (apply Rmult_le_compat; lra).
    assert (A3 : 0 <= s * (2 + m) <= 201 / 100 * (2 + 17321 / 10000 * n)) by (split; [apply Rmult_le_pos; lra|apply Rmult_le_compat; lra]).
    assert (A4 : 0 <= (s * (2 + m) + 3) * eta <= (201 / 100 * (2 + 17321 / 10000 * n) + 3) * eta) by (split; [apply Rmult_le_pos; lra|apply Rmult_le_compat_r; lra]).
    assert (A5 : p * ((s * (2 + m) + 3) * eta) <= 1004 / 1000 * ((201 / 100 * (2 + 17321 / 10000 * n) + 3) * eta)) by (apply Rmult_le_compat; lra).
    assert (A6 : n * eta <= n * (/ 10000 * uro)) by (apply Rmult_le_compat_l; lra). assert (0 <= uro * n) by (apply Rmult_le_pos; lra). lra. }
  assert (Un : 0 <= uro * n) by (apply Rmult_le_pos; lra).
  assert (S3 : sqrt (INR 3) <= 17321 / 10000).
  { replace (INR 3) with 3 by (cbn; lra). rewrite <- (sqrt_square (17321 / 10000)) by lra. apply sqrt_le_1_alt. lra. }
  assert (K : nrm 3 (fun k => X k - rotR w u V k) <= 192 * uro * n + 13 * eta).
  { eapply Rle_trans; [apply (nrm_bound 3 _ (1107 / 10 * uro * n + 71 / 10 * eta))| ]; [lra|exact C| ].
    apply Rle_trans with (17321 / 10000 * (1107 / 10 * uro * n + 71 / 10 * eta)); [apply Rmult_le_compat_r; lra|lra]. }
  set (f := 1 - sq_sum 4 (qR b)).
  rewrite (nrm_ext 3 _ (fun k => (X k - rotR w u V k) + f * V k)).
  - eapply Rle_trans; [apply nrm_plus| ]. rewrite nrm_scal. fold n.
    assert (Rabs f * n <= 201 / 100 * dl * n) by (apply Rmult_le_compat_r; [exact N0|unfold f; rewrite Rabs_minus_sym; exact Q]). lra.
  - intros k Hk. rewrite sand_rotR by exact Hk. cbv zeta.
    assert (EA : forall k, (fun k => match k with 0%nat => w | S k => u k end) k = qR b k) by (intros [ |k']; reflexivity).
    assert (E1 : sq_sum 4 (fun k => match k with 0%nat => w | S k => u k end) = sq_sum 4 (qR b)) by reflexivity.
    assert (E2 : sand (fun k => match k with 0%nat => w | S k => u k end) V k = sand (qR b) V k) by reflexivity.
    rewrite E1, E2. unfold f, X. ring.
Qed.

(** rotating by the product is rotating twice *)
Lemma c91_compose_vectors : forall dl (a b : Quaternion fl) (v : V3 fl), near_unit dl a -> near_unit dl b -> dl + 9 * uro <= / 500 ->
  (forall k, (k < 3)%nat -> is_finite (vfun v k) = true /\ Rabs (B2R (vfun v k)) <= bpow radix2 (emax - 10)) ->
  let x := q_mul_v (q_mul a b) v in let y := q_mul_v a (q_mul_v b v) in
  (forall k, (k < 3)%nat -> is_finite (vfun x k) = true /\ is_finite (vfun y k) = true) /\
  nrm 3 (fun k => B2R (vfun x k) - B2R (vfun y k)) <= (9 * dl + 650 * uro) * nrm 3 (fun k => B2R (vfun v k)) + 45 * eta.
Proof.
  intros dl a b v Ha Hb Hd Hv x y. pose proof (uro_small Hp11) as U. pose proof (uro_pos (prec := prec)) as P0. pose proof (eta_tiny Hp11 He4) as T. assert (E0 : 0 <= eta) by apply eta_pos.
  assert (D0 : 0 <= dl) by (eapply Rle_trans; [apply Rabs_pos|apply Ha]).
  set (V := fun k => B2R (vfun v k)). set (n := nrm 3 V). assert (N0 : 0 <= n) by apply nrm_pos.
  assert (Mb : bpow radix2 (emax - 9) = 2 * bpow radix2 (emax - 10)).
  { replace (emax - 9)%Z with (1 + (emax - 10))%Z by ring. rewrite bpow_plus. reflexivity. }
  set (M := bpow radix2 (emax - 10)) in *. assert (M1 : 1 <= M) by (change 1 with (bpow radix2 0); apply bpow_le; lia).
  assert (Hv' : forall k, (k < 3)%nat -> is_finite (vfun v k) = true /\ Rabs (B2R (vfun v k)) <= bpow radix2 (emax - 9)).
  { intros k Hk. destruct (Hv k Hk). split; [assumption|lra]. }
  assert (Nn : n <= 17321 / 10000 * M).
  { eapply Rle_trans; [apply (nrm_bound 3 V M); [lra|intros k Hk; apply Hv, Hk]| ]. apply Rmult_le_compat_r; [lra| ].
    replace (INR 3) with 3 by (cbn; lra). rewrite <- (sqrt_square (17321 / 10000)) by lra. apply sqrt_le_1_alt. lra. }
  destruct (c91_product_drift dl (b :: nil)%list a Ha ltac:(constructor; [exact Hb|constructor]) ltac:(cbn; lra)) as [G D]. cbn [fold_left length INR hprod pow] in G, D.
  assert (D' : nrm 4 (fun k => qR (q_mul a b) k - hp (qR a) (qR b) k) <= 91 / 10 * uro) by (eapply Rle_trans; [exact D|nra]). clear D.
  set (t := 102 / 100 * (dl + 1 * (dl + 9 * uro))) in *. assert (Gd : t <= / 240) by (unfold t; lra).
  destruct (rotate_err (q_mul a b) v t G ltac:(lra) Hv') as [F1 K1]. cbv zeta in K1. fold V n in K1. fold x in F1, K1.
  destruct (rotate_err b v dl Hb ltac:(lra) Hv') as [F2 K2]. cbv zeta in K2. fold V n in K2.
  set (w := q_mul_v b v) in *. set (W := fun k => B2R (vfun w k)) in *.
  pose proof (near_sq dl a Ha ltac:(lra)) as Qa. pose proof (near_sq dl b Hb ltac:(lra)) as Qb. apply Rabs_le_inv in Qa, Qb.
  assert (Un : 0 <= uro * n) by (apply Rmult_le_pos; lra). assert (Dn : 0 <= dl * n) by (apply Rmult_le_pos; lra).
  assert (un : uro * n <= / 4500 * n) by (apply Rmult_le_compat_r; lra). assert (dn : dl * n <= / 500 * n) by (apply Rmult_le_compat_r; lra).
  assert (NW : nrm 3 W <= 106 / 100 * n + 13 * eta).
  { rewrite (nrm_ext 3 W (fun k => sand (qR b) V k + (W k - sand (qR b) V k))) by (intros; ring). eapply Rle_trans; [apply nrm_plus| ]. rewrite sand_norm. fold n.
    assert (sq_sum 4 (qR b) * n <= 1005 / 1000 * n) by (apply Rmult_le_compat_r; lra). change (fun k => W k - sand (qR b) V k) with (fun k => B2R (vfun w k) - sand (qR b) V k). lra. }
  assert (HW : forall k, (k < 3)%nat -> is_finite (vfun w k) = true /\ Rabs (B2R (vfun w k)) <= bpow radix2 (emax - 9)).
  { intros k Hk. split; [apply F2, Hk| ]. pose proof (comp_nrm 3 W k Hk) as Cw. change (Rabs (W k) <= bpow radix2 (emax - 9)). rewrite Mb. lra. }
  destruct (rotate_err a w dl Ha ltac:(lra) HW) as [F3 K3]. cbv zeta in K3. fold W in K3. fold y in F3, K3.
  split; [intros k Hk; split; [apply F1, Hk|apply F3, Hk]| ].
  set (H := hp (qR a) (qR b)) in *. destruct G as [_ Np]. apply Rabs_le_inv in Np. pose proof (proj2 Ha) as Na. pose proof (proj2 Hb) as Nb. apply Rabs_le_inv in Na, Nb.
  assert (NH : nrm 4 H <= 101 / 100).
  { unfold H. rewrite hp_norm. apply Rle_trans with (1002 / 1000 * (1002 / 1000)); [apply Rmult_le_compat; try apply nrm_pos; lra|lra]. }
  set (X := fun k => B2R (vfun x k)) in *. set (Y := fun k => B2R (vfun y k)) in *. set (p := q_mul a b) in *.
  rewrite (nrm_ext 3 _ (fun k => (X k - sand (qR p) V k) + ((sand (qR p) V k - sand H V k) + (sand (qR a) (fun k => sand (qR b) V k - W k) k + (sand (qR a) W k - Y k))))).
  - eapply Rle_trans; [apply nrm_plus| ]. eapply Rle_trans; [apply Rplus_le_compat_l, nrm_plus| ]. eapply Rle_trans; [apply Rplus_le_compat_l, Rplus_le_compat_l, nrm_plus| ].
    assert (B2 : nrm 3 (fun k => sand (qR p) V k - sand H V k) <= 19 * (uro * n)).
    { eapply Rle_trans; [apply sand_diff| ]. fold n. pose proof (nrm_pos 4 (qR p)). pose proof (nrm_pos 4 H).
      apply Rle_trans with (91 / 10 * uro * (202 / 100) * n); [ |lra]. apply Rmult_le_compat_r; [exact N0| ]. apply Rmult_le_compat; try apply nrm_pos; lra. }
    assert (B3 : nrm 3 (sand (qR a) (fun k => sand (qR b) V k - W k)) <= 1005 / 1000 * ((201 / 100 * dl + 192 * uro) * n + 13 * eta)).
    { rewrite sand_norm. apply Rmult_le_compat; [apply sq_sum_pos|apply nrm_pos|lra| ].
      rewrite (nrm_ext 3 _ (fun k => (-1) * (W k - sand (qR b) V k))) by (intros; ring). rewrite nrm_scal. replace (Rabs (-1)) with 1 by (rewrite Rabs_left; lra). rewrite Rmult_1_l. exact K2. }
    assert (B4 : nrm 3 (fun k => sand (qR a) W k - Y k) <= (201 / 100 * dl + 192 * uro) * (106 / 100 * n + 13 * eta) + 13 * eta).
    { rewrite (nrm_ext 3 _ (fun k => (-1) * (Y k - sand (qR a) W k))) by (intros; ring). rewrite nrm_scal. replace (Rabs (-1)) with 1 by (rewrite Rabs_left; lra). rewrite Rmult_1_l.
      eapply Rle_trans; [exact K3| ]. apply Rplus_le_compat_r. apply Rmult_le_compat_l; [lra|exact NW]. }
    assert (tn : t * n = 204 / 100 * (dl * n) + 918 / 100 * (uro * n)) by (unfold t; field).
    assert (B5 : (201 / 100 * dl + 192 * uro) * (13 * eta) <= / 10 * (13 * eta)) by (apply Rmult_le_compat_r; lra).
    change (nrm 3 (fun k => B2R (vfun x k) - sand (qR p) V k)) with (nrm 3 (fun k => X k - sand (qR p) V k)) in K1.
    replace ((201 / 100 * t + 192 * uro) * n + 13 * eta) with (201 / 100 * (t * n) + 192 * (uro * n) + 13 * eta) in K1 by ring. rewrite tn in K1.
    lra.
  - intros k Hk. unfold H. rewrite sand_hp_mul by exact Hk.
    replace (sand (qR a) (fun k => sand (qR b) V k - W k) k) with (sand (qR a) (sand (qR b) V) k - sand (qR a) W k) by (unfold sand at 1 3 4; ring).
    unfold X, Y. ring.
Qed.

(** what normalize() returns qualifies *)
Lemma c91_normalize_near : forall (a b : Quaternion fl), normalized a = false -> is_finite (q_norm2 a) = true -> q_normalize a = Some b -> near_unit (9 * uro) b.
Proof.
  intros a b Hn F E. destruct (c87_normalize Hp11 He4 a b Hn F E) as (D & C). split; [intros k Hk; apply C, Hk| ].
  change (Rabs (sq_sum 4 (qR b) - 1) <= 9 * uro) in D. rewrite <- nrm_sq in D. pose proof (nrm_pos 4 (qR b)) as P. set (n := nrm 4 (qR b)) in *.
  replace (n * n - 1) with ((n - 1) * (n + 1)) in D by ring. rewrite Rabs_mult, (Rabs_pos_eq (n + 1)) in D by lra.
  pose proof (Rabs_pos (n - 1)). nra.
Qed.
End F.

#[local] Instance prec53 : Prec_gt_0 53 := eq_refl.
#[local] Instance emax1024 : Prec_lt_emax 53 1024 := eq_refl.
#[local] Notation f64 := (binary_float 53 1024).

(** a thousand and one turns by the normalized (3, 4, -2, 1) *)
Example C91_case : forall O : FOracle f64, exists b : Quaternion f64, q_normalize (q_new (fofZ 3) [| fofZ 4; fofZ (-2); fofZ 1 |]) = Some b /\
  near_unit (prec := 53) (emax := 1024) (102 / 100 * (9 * bpow radix2 (-53) + 1000 * (18 * bpow radix2 (-53)))) (fold_left q_mul (repeat b 1000) b).
Proof.
  intros O. set (a := q_new (fofZ 3 : f64) [| fofZ 4; fofZ (-2); fofZ 1 |]).
  assert (N : match q_normalize a with Some _ => true | None => false end = true) by (vm_compute; reflexivity).
  destruct (q_normalize a) as [b| ] eqn:E; [ |discriminate]. exists b. split; [reflexivity| ].
  assert (Nb : near_unit (9 * uro (prec := 53)) b) by (apply (c91_normalize_near (prec := 53) (emax := 1024) ltac:(lia) ltac:(lia) a b eq_refl); [vm_compute; reflexivity|exact E]).
  assert (Uv : uro (prec := 53) = bpow radix2 (-53)) by (unfold uro; change (1 - 53)%Z with (1 + - 53)%Z; rewrite bpow_plus; change (bpow radix2 1) with 2; lra).
  destruct (c91_product_drift (prec := 53) (emax := 1024) ltac:(lia) ltac:(lia) (9 * uro (prec := 53)) (repeat b 1000) b Nb) as [G _].
  - apply Forall_forall. intros x Hx. apply repeat_spec in Hx. subst x. exact Nb.
  - rewrite repeat_length, Uv. rewrite INR_IZR_INZ. assert (bpow radix2 (-53) <= / 1000000000000) by (cbn; lra). change (Z.of_nat 1000) with 1000%Z. lra.
  - rewrite repeat_length, Uv in G. rewrite INR_IZR_INZ in G. change (Z.of_nat 1000) with 1000%Z in G.
    replace (1000 * (18 * bpow radix2 (-53))) with (1000 * (9 * bpow radix2 (-53) + 9 * bpow radix2 (-53))) by ring. exact G.
Qed.
