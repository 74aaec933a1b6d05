(** * ProofsQuatExp: C33, exp / ln / sqrt / pow of quaternions; C55, sin / cos *)

From Coq Require Import List Arith Lia Bool Reals Lra Psatz.
From Verif Require Import Base Scalar Vec Mat2 Mat3 Mat4 Mat6 Slices MatLoops MatOps Quat Transf
  DualQuat RingDet Spec Entries DetEntries InstR RFacts TrigFacts ProofsRing ProofsInverse ProofsNorm
  ProofsQuat ProofsRigid ProofsRot ProofsQuatR ProofsQuatFlag.
Import ListNotations.
Local Open Scope R_scope.

(** Specification: the quaternion r (cos a + sin a u) *)
Definition qpolar (r a : R) (u : V3 R) : R * R * R * R :=
  (r * cos a, r * sin a * vfun u 0, r * sin a * vfun u 1, r * sin a * vfun u 2).
Definition unit3 (u : V3 R) : Prop := v3_dot u u = 1.

(** iterated product *)
Fixpoint qpow_nat (q : Quaternion R) (k : nat) : Quaternion R :=
  match k with O => q_one | S k => q_mul q (qpow_nat q k) end.

Lemma sin_le_x x : 0 <= x -> sin x <= x.
Proof. intros [H|<-]; [left; now apply sin_lt_x|rewrite sin_0; lra]. Qed.

Lemma qpolar_mul (p q : Quaternion R) r a s b u : unit3 u ->
  qval p = qpolar r a u -> qval q = qpolar s b u -> qval (q_mul p q) = qpolar (r * s) (a + b) u.
Proof.
  intros U P Q. rewrite (c26_mul_hamilton R_ring), P, Q. unfold qpolar. rewrite cos_plus, sin_plus.
  generalize (cos a) (sin a) (cos b) (sin b). unfold unit3 in U. revert U. clear. rdes. rlazy.
  intros U c s' c' s''. rpairs; try ring. 
  transitivity (r * s * (c * c') - r * s * (s' * s'') * (x * x + y * y + z * z)); [ring|rewrite U; ring].
Qed.

Lemma qval_inj (q : Quaternion R) a b c d : qval q = (a, b, c, d) -> q0 q = a /\ Quat.q q = [| b; c; d |].
Proof. rdes. rlazy. intros E. injection E as <- <- <- <-. split; reflexivity. Qed.

Lemma qval_parts (p q : Quaternion R) : qval p = qval q -> q0 p = q0 q /\ Quat.q p = Quat.q q.
Proof. rdes. rlazy. intros E. injection E as -> -> -> ->. split; reflexivity. Qed.

Lemma v3_eq_scale (v u : V3 R) s :
  v = v3_scale u s <-> (vfun v 0, vfun v 1, vfun v 2) = (s * vfun u 0, s * vfun u 1, s * vfun u 2).
Proof.
  rdes. rlazy. split.
  - intros E. injection E as -> -> ->. rpairs; ring.
  - intros E. injection E as -> -> ->. rpairs; ring.
Qed.

Lemma qpolar_form (q : Quaternion R) r a u : qval q = qpolar r a u <->
  q0 q = r * cos a /\ Quat.q q = v3_scale u (r * sin a).
Proof.
  rewrite v3_eq_scale. unfold qpolar. rdes. rlazy. split.
  - intros E. injection E as -> -> -> ->. split; reflexivity.
  - intros [-> E]. injection E as -> -> ->. reflexivity.
Qed.

Section R.
Context {K : RConsts} (OK : RConstsOk K).
Notation Q := (Quaternion R).

Lemma unit3_norm u : unit3 u -> v3_norm2 u = 1.
Proof.
  unfold unit3. intros U. rewrite (c18_norm2_dot D3 u : v3_norm2 u = sqrt (v3_dot u u)), U. apply sqrt_1.
Qed.

Lemma polar_norm (q : Quaternion R) r a u : unit3 u -> qval q = qpolar r a u -> qnormsq q = r * r.
Proof.
  intros U E. apply qpolar_form in E as [E0 E1]. rewrite qnormsq_dot, E0, E1, v3_dot_scale, U.
  pose proof (sin2_cos2' a) as S. transitivity (r * r * (sin a * sin a + cos a * cos a)); [ring|rewrite S; ring].
Qed.

(** every vector is a non-negative multiple of a unit vector *)
Lemma v3_direction (v : V3 R) : exists u, unit3 u /\ v = v3_scale u (v3_norm2 v).
Proof.
  destruct (Req_dec (v3_norm2 v) 0) as [Z|N].
  - exists ex. split; [rlazy; ring| ]. rewrite Z. apply v3_norm2_zero in Z. rewrite Z. rr.
  - exists (unit_of v). assert (V : v <> v3_zeros) by (intros E; apply N, v3_norm2_zero, E).
    split; [now apply unit_of_unit| ]. unfold unit_of.
    rewrite <- (c18_norm2_dot D3 v : v3_norm2 v = sqrt (v3_dot v v)), v3_scale_scale, Rinv_l, v3_scale_1 by exact N.
    reflexivity.
Qed.

(** ** exp *)

Lemma c33_exp_polar : forall (q : Q) x s u, unit3 u -> s = 0 \/ r_eps < Rabs s ->
  qval q = (x, s * vfun u 0, s * vfun u 1, s * vfun u 2) ->
  qval (q_exp q) = qpolar (exp x) s u.
Proof.
  intros q x s u U D E. apply qval_inj in E as [E0 E1].
  assert (E2 : Quat.q q = v3_scale u s).
  { rewrite E1. apply v3_eq_scale. reflexivity. }
  apply qpolar_form. unfold q_exp, q_real, q_abs_imag, q_imag. cbn [q0 Quat.q].
  cbn [ltb R_POrd epsilon R_Float fexp fcos fsin mul div R_Num].
  rewrite E0, E2, v3_norm2_scale, (unit3_norm u U), Rmult_1_r.
  split.
  - f_equal. unfold Rabs. destruct (Rcase_abs s); [apply cos_neg|reflexivity].
  - destruct D as [->|D].
    + rewrite Rabs_R0. rewrite sin_0, v3_scale_0, v3_scale_zeros, Rmult_0_r, v3_scale_0. reflexivity.
    + replace (Rltb r_eps (Rabs s)) with true by (symmetry; now apply Rltb_true).
      rewrite v3_scale_scale. f_equal. pose proof (eps_pos K OK).
      unfold Rabs in *. destruct (Rcase_abs s); [rewrite sin_neg| ]; field; lra.
Qed.

(** the exponential of a pure quaternion is a unit quaternion *)
Lemma c33_exp_pure_unit_partial : forall q : Q, q0 q = 0 ->
  v3_norm2 (Quat.q q) = 0 \/ r_eps < v3_norm2 (Quat.q q) -> unit_quat (q_exp q).
Proof.
  intros q Z D. destruct (v3_direction (Quat.q q)) as (u & U & E).
  pose proof (v3_norm2_nonneg (Quat.q q)) as P. set (m := v3_norm2 (Quat.q q)) in *. clearbody m.
  assert (X : qval (q_exp q) = qpolar (exp 0) m u).
  { apply c33_exp_polar; [exact U|rewrite (Rabs_pos_eq m) by exact P; exact D| ].
    revert Z E. clear. rdes. rlazy. intros -> E. injection E as -> -> ->. rpairs; ring. }
  unfold unit_quat. rewrite (polar_norm _ _ _ _ U X), exp_0. cbn [one R_Num]. ring.
Qed.

(** in the tolerance zone the norm is off by at most epsilon squared *)
Lemma c33_exp_pure_unit_approx : forall q : Q, q0 q = 0 ->
  1 <= qnormsq (q_exp q) <= 1 + r_eps * r_eps.
Proof.
  intros q Z. pose proof (eps_pos K OK) as He. pose proof (eps_small K OK) as Hs.
  pose proof (v3_norm2_nonneg (Quat.q q)) as P.
  destruct (Rle_lt_dec (v3_norm2 (Quat.q q)) r_eps) as [L|L].
  - unfold q_exp, q_abs_imag, q_imag, q_real. rewrite Z. set (m := v3_norm2 (Quat.q q)) in *.
    cbn [ltb R_POrd epsilon R_Float fexp fcos mul R_Num].
    replace (Rltb r_eps m) with false by (symmetry; apply Rltb_false; lra).
    rewrite exp_0, qnormsq_dot. cbn [q0 Quat.q]. rewrite v3_dot_scale, <- v3_norm2_sq. fold m.
    pose proof (sin2_cos2' m) as S. pose proof (sin_le_x m P).
    assert (0 <= sin m) by (apply sin_ge_0; pose proof PI2_1; lra). nra.
  - rewrite (c33_exp_pure_unit_partial q Z (or_intror L)). cbn [one R_Num]. nra.
Qed.

Lemma c33_exp_pure_unit_refuted : exists q : Q, q0 q = 0 /\ ~ unit_quat (q_exp q).
Proof.
  pose proof (eps_pos K OK) as He. pose proof (eps_small K OK) as Hs.
  set (m := r_eps / 2). exists (q_new 0 (v3_scale ey m)). split; [reflexivity| ].
  unfold unit_quat, q_exp, q_abs_imag, q_imag, q_real. cbn [q0 Quat.q q_new].
  rewrite v3_norm2_scale, (unit3_norm ey ltac:(rlazy; ring)), Rmult_1_r, (Rabs_pos_eq m) by (unfold m; lra).
  cbn [ltb R_POrd epsilon R_Float fexp fcos mul R_Num].
  replace (Rltb r_eps m) with false by (symmetry; apply Rltb_false; unfold m; lra).
  rewrite exp_0, qnormsq_dot. cbn [q0 Quat.q]. rewrite !v3_dot_scale.
  replace (v3_dot ey ey) with 1 by (rlazy; ring). cbn [one R_Num].
  pose proof (sin2_cos2' m) as S. assert (Hm : 0 < m) by (unfold m; lra). pose proof (sin_lt_x m Hm).
  assert (0 <= sin m) by (apply sin_ge_0; pose proof PI2_1; unfold m in *; lra). nra.
Qed.

(** ** ln *)

(** polar form of any non-zero quaternion *)
Lemma polar_exists (q : Q) : qval q <> (0, 0, 0, 0) ->
  let n := sqrt (qnormsq q) in
  exists u a, unit3 u /\ 0 < n /\ 0 <= a <= PI /\ qval q = qpolar n a u
    /\ v3_norm2 (Quat.q q) = n * sin a.
Proof.
  intros N n. destruct (v3_direction (Quat.q q)) as (u & U & E).
  exists u, (Ratan2 (v3_norm2 (Quat.q q)) (q0 q)).
  pose proof (v3_norm2_nonneg (Quat.q q)) as P.
  assert (NS : qnormsq q = q0 q * q0 q + v3_norm2 (Quat.q q) * v3_norm2 (Quat.q q))
    by (rewrite qnormsq_dot, v3_norm2_sq; reflexivity).
  assert (D : q0 q <> 0 \/ v3_norm2 (Quat.q q) <> 0).
  { destruct (Req_dec (q0 q) 0) as [Z| ]; [ |now left].
    destruct (Req_dec (v3_norm2 (Quat.q q)) 0) as [Z'| ]; [ |now right].
    exfalso. apply N, q_norm2_zero. rewrite q_norm2_sqrt, NS, Z, Z'.
    replace (0 * 0 + 0 * 0) with 0 by ring. apply sqrt_0. }
  destruct (Ratan2_spec _ _ D) as (Pr & C & S & _). rewrite <- NS in Pr, C, S. fold n in Pr, C, S.
  split; [exact U|split; [exact Pr|split; [apply Ratan2_nonneg, P| ]]]. split.
  - apply qpolar_form. rewrite C, S. split; [field; lra| ]. rewrite E at 1. f_equal. field. lra.
  - rewrite S. field. lra.
Qed.

Lemma normalize_a_spec (q : Q) r a u : honest q -> 0 < r -> unit3 u -> qval q = qpolar r a u ->
  snd (q_normalize_a q) = r /\ qval (fst (q_normalize_a q)) = qpolar 1 a u.
Proof.
  intros H Pr U E. pose proof (polar_norm q r a u U E) as N. unfold q_normalize_a.
  destruct (normalized q) eqn:F; cbn [fst snd].
  - specialize (H F). unfold unit_quat in H. rewrite N in H. cbn [one R_Num] in *.
    assert (r = 1) by nra. subst r. split; [reflexivity|exact E].
  - rewrite q_norm2_sqrt, N. rewrite sqrt_square by lra. split; [reflexivity| ].
    apply qpolar_form in E as [E0 E1]. apply qpolar_form. unfold q_div_s, q_new. cbn [q0 Quat.q div R_Num].
    rewrite E0, E1, v3_div_scale, v3_scale_scale. split; [field; lra|f_equal; field; lra].
Qed.

(** the quaternions whose logarithm is exact *)
Definition clear_of_real_axis (q : Q) : Prop :=
  v3_norm2 (Quat.q q) = 0 \/ r_eps * sqrt (qnormsq q) < v3_norm2 (Quat.q q).

Lemma ln_polar (q : Q) : honest q -> qval q <> (0, 0, 0, 0) -> clear_of_real_axis q ->
  let n := sqrt (qnormsq q) in
  exists u a, unit3 u /\ 0 < n /\ 0 <= a <= PI /\ qval q = qpolar n a u
    /\ (a = 0 \/ r_eps < a) /\ (v3_norm2 (Quat.q q) = 0 \/ v3_norm2 (Quat.q q) <= n * a)
    /\ q_ln q = mkQ (ln n) (v3_scale u a) false.
Proof.
  intros H N C n. destruct (polar_exists q N) as (u & a & U & P & Ha & E & M). fold n in P, E, M.
  pose proof (eps_pos K OK) as He. pose proof (eps_small K OK) as Hs. pose proof PI2_1 as HP.
  destruct C as [Z|L].
  - (* on the real axis *)
    rewrite Z in M. assert (S : sin a = 0) by nra.
    assert (Hc : a = 0 \/ a = PI).
    { destruct (Req_dec a 0) as [ |A0]; [auto| ]. destruct (Req_dec a PI) as [ |A1]; [auto| ].
      assert (0 < sin a) by (apply sin_gt_0; lra). lra. }
    assert (E' : qval q = qpolar n a ex).
    { apply qpolar_form in E as [E0 E1]. apply qpolar_form. rewrite S in *. split; [exact E0| ].
      rewrite E1, Rmult_0_r, !v3_scale_0. reflexivity. }
    exists ex, a. assert (U' : unit3 ex) by (rlazy; ring).
    split; [exact U'|split; [exact P|split; [exact Ha|split; [exact E'|split; [lra|split; [auto| ]]]]]].
    unfold q_ln. destruct (normalize_a_spec q n a ex H P U' E') as [A B].
    destruct (q_normalize_a q) as [p r]. cbn [fst snd] in A, B. subst r.
    apply qpolar_form in B as [B0 B1]. unfold q_abs_imag, q_imag, q_real. rewrite B0, B1, S.
    rewrite Rmult_0_r, v3_scale_0, (proj2 (v3_norm2_zero v3_zeros) eq_refl), Rmult_1_l.
    cbn [ltb R_POrd epsilon R_Float fatan2 fln].
    replace (Rltb r_eps 0) with false by (symmetry; apply Rltb_false; lra).
    f_equal. replace (Ratan2 0 (cos a)) with a; [rlazy; rpairs; ring| ].
    symmetry. rewrite <- (Rmult_1_l (cos a)), <- S, <- (Rmult_1_l (sin a)). apply Ratan2_polar; lra.
  - (* away from it *)
    rewrite M in L. fold n in L. assert (S : r_eps < sin a) by nra.
    assert (A1 : a < PI) by (destruct Ha as [_ [Q| ->]]; [exact Q|rewrite sin_PI in S; lra]).
    pose proof (sin_le_x a (proj1 Ha)) as SL.
    exists u, a.
    split; [exact U|split; [exact P|split; [exact Ha|split; [exact E|split; [lra|split; [right; rewrite M; nra| ]]]]]].
    unfold q_ln. destruct (normalize_a_spec q n a u H P U E) as [A B].
    destruct (q_normalize_a q) as [p r]. cbn [fst snd] in A, B. subst r.
    apply qpolar_form in B as [B0 B1]. unfold q_abs_imag, q_imag, q_real. rewrite B0, B1, !Rmult_1_l.
    rewrite v3_norm2_scale, (unit3_norm u U), Rmult_1_r, Rabs_pos_eq by lra.
    cbn [ltb R_POrd epsilon R_Float fatan2 fln div R_Num].
    replace (Rltb r_eps (sin a)) with true by (symmetry; now apply Rltb_true).
    f_equal. rewrite v3_scale_scale. f_equal.
    replace (Ratan2 (sin a) (cos a)) with a; [field; lra| ].
    symmetry. rewrite <- (Rmult_1_l (cos a)), <- (Rmult_1_l (sin a)) at 1. apply Ratan2_polar; lra.
Qed.

Lemma exp_scaled_ln (q p : Q) n u a s : unit3 u -> 0 < n -> q_ln q = mkQ (ln n) (v3_scale u a) false ->
  s * a = 0 \/ r_eps < Rabs (s * a) -> qval p = qval (q_scale (q_ln q) s) ->
  qval (q_exp p) = qpolar (exp (s * ln n)) (s * a) u.
Proof.
  intros U P E D V. apply c33_exp_polar; [exact U|exact D| ]. rewrite V, E. clear. rr.
Qed.

(** exp inverts ln *)
Lemma c33_exp_ln_partial : forall q : Q, honest q -> qval q <> (0, 0, 0, 0) ->
  clear_of_real_axis q -> qval (q_exp (q_ln q)) = qval q.
Proof.
  intros q H N C. destruct (ln_polar q H N C) as (u & a & U & P & Ha & E & D & _ & L).
  rewrite (exp_scaled_ln q (q_ln q) _ u a 1 U P L).
  - rewrite !Rmult_1_l, exp_ln by exact P. symmetry. exact E.
  - rewrite Rmult_1_l. rewrite Rabs_pos_eq by lra. exact D.
  - rewrite L. clear. rr.
Qed.

(** for every non-zero quaternion the error is at most two epsilon (relative) *)
Lemma c33_exp_ln_approx : forall q : Q, honest q -> qval q <> (0, 0, 0, 0) ->
  q0 (q_exp (q_ln q)) = q0 q
  /\ v3_norm2 (v3_sub (Quat.q (q_exp (q_ln q))) (Quat.q q)) <= 2 * r_eps * sqrt (qnormsq q).
Proof.
  intros q H N. pose proof (eps_pos K OK) as He. pose proof (eps_small K OK) as Hs.
  destruct (Rle_lt_dec (v3_norm2 (Quat.q q)) (r_eps * sqrt (qnormsq q))) as [L|L].
  - destruct (polar_exists q N) as (u & a & U & P & Ha & E & M).
    set (n := sqrt (qnormsq q)) in *. clearbody n.
    assert (S : sin a <= r_eps) by (rewrite M in L; nra).
    assert (S0 : 0 <= sin a) by (apply sin_ge_0; lra).
    assert (X : q_ln q = mkQ (ln n) (v3_scale ex a) false).
    { unfold q_ln. destruct (normalize_a_spec q n a u H P U E) as [A B].
      destruct (q_normalize_a q) as [p r]. cbn [fst snd] in A, B. subst r.
      apply qpolar_form in B as [B0 B1]. unfold q_abs_imag, q_imag, q_real. rewrite B0, B1, !Rmult_1_l.
      rewrite v3_norm2_scale, (unit3_norm u U), Rmult_1_r, Rabs_pos_eq by exact S0.
      cbn [ltb R_POrd epsilon R_Float fatan2 fln div R_Num].
      replace (Rltb r_eps (sin a)) with false by (symmetry; apply Rltb_false; lra).
      replace (Ratan2 (sin a) (cos a)) with a; [f_equal; rlazy; rpairs; ring| ].
      symmetry. rewrite <- (Rmult_1_l (cos a)), <- (Rmult_1_l (sin a)) at 1. pose proof PI2_1. apply Ratan2_polar; lra. }
    rewrite X. unfold q_exp, q_abs_imag, q_imag, q_real. cbn [q0 Quat.q].
    assert (U' : unit3 ex) by (rlazy; ring).
    rewrite v3_norm2_scale, (unit3_norm ex U'), Rmult_1_r, Rabs_pos_eq by lra.
    cbn [ltb R_POrd epsilon R_Float fexp fcos fsin mul div R_Num]. rewrite exp_ln by exact P.
    apply qpolar_form in E as [E0 E1]. split; [symmetry; exact E0| ].
    rewrite E1.
    assert (G : exists b, 0 <= b <= r_eps /\
      v3_scale (v3_scale ex a) (if Rltb r_eps a then n * (sin a / a) else n) = v3_scale ex (n * b)).
    { destruct (Rltb_spec r_eps a) as [A|A].
      - exists (sin a). split; [lra| ]. rewrite v3_scale_scale. f_equal. field. lra.
      - exists a. split; [lra| ]. rewrite v3_scale_scale. f_equal. ring. }
    destruct G as (b & Hb & ->).
    rewrite (c18_norm2_dot D3 _ : v3_norm2 (v3_sub _ _) = sqrt (v3_dot _ _)).
    rewrite <- (sqrt_square (2 * r_eps * n)) by nra. apply sqrt_le_1_alt.
    assert (B2 : forall c, 0 <= c -> forall k, 0 <= k <= c -> k * k <= c * c) by (intros; nra).
    pose proof (B2 r_eps (Rlt_le _ _ He) b Hb) as X1.
    pose proof (B2 r_eps (Rlt_le _ _ He) (sin a) (conj S0 S)) as X2.
    set (s := sin a) in *. clearbody s.
    replace (v3_dot _ _) with (n * n * ((b * b - 2 * b * s * vfun u 0) + s * s * v3_dot u u))
      by (clear; rr).
    rewrite U.
    assert (UB : -1 <= vfun u 0 <= 1) by (revert U; clear; unfold unit3; rdes; rlazy; intros; nra).
    assert (b * s <= r_eps * r_eps) by nra.
    assert (- (2 * b * s * vfun u 0) <= 2 * (r_eps * r_eps)).
    { assert (0 <= b * s) by nra. nra. }
    replace (2 * r_eps * n * (2 * r_eps * n)) with (n * n * (4 * (r_eps * r_eps))) by ring.
    apply Rmult_le_compat_l; nra.
  - pose proof (c33_exp_ln_partial q H N (or_intror L)) as E.
    assert (E0 : q0 (q_exp (q_ln q)) = q0 q /\ Quat.q (q_exp (q_ln q)) = Quat.q q).
    { now apply qval_parts. }
    destruct E0 as [-> ->]. split; [reflexivity| ].
    replace (v3_sub (Quat.q q) (Quat.q q)) with (v3_zeros : V3 R) by (clear; rr).
    rewrite (proj2 (v3_norm2_zero v3_zeros) eq_refl). pose proof (sqrt_pos (qnormsq q)). nra.
Qed.

(** near the real axis the logarithm is put on the x axis whatever the axis of
    the quaternion *)
Lemma c33_exp_ln_refuted : exists q : Q, honest q /\ qval q <> (0, 0, 0, 0)
  /\ qval (q_exp (q_ln q)) <> qval q.
Proof.
  pose proof (eps_pos K OK) as He. pose proof (eps_small K OK) as Hs.
  set (m := r_eps / 2). set (q := q_new (cos m) (v3_scale ey (sin m))).
  assert (Hm : 0 < m) by (unfold m; lra). pose proof PI2_1 as HP.
  assert (S0 : 0 < sin m) by (apply sin_gt_0; unfold m in *; lra).
  pose proof (sin_lt_x m Hm) as SL.
  assert (V : qval q = qpolar 1 m ey).
  { apply qpolar_form. rewrite !Rmult_1_l. split; reflexivity. }
  assert (U : unit3 ey) by (rlazy; ring).
  assert (NZ : qval q <> (0, 0, 0, 0)).
  { intros Z. apply q_norm2_zero in Z. rewrite q_norm2_sqrt, (polar_norm q 1 m ey U V), Rmult_1_r, sqrt_1 in Z. lra. }
  exists q. split; [intros F; discriminate F|split; [exact NZ| ]].
  assert (X : q_ln q = mkQ (ln 1) (v3_scale ex m) false).
  { unfold q_ln. destruct (normalize_a_spec q 1 m ey) as [A B];
      [intros F; discriminate F|lra|exact U|exact V| ].
    destruct (q_normalize_a q) as [p r]. cbn [fst snd] in A, B. subst r.
    apply qpolar_form in B as [B0 B1]. unfold q_abs_imag, q_imag, q_real. rewrite B0, B1, !Rmult_1_l.
    rewrite v3_norm2_scale, (unit3_norm ey U), Rmult_1_r, Rabs_pos_eq by lra.
    cbn [ltb R_POrd epsilon R_Float fatan2 fln div R_Num].
    replace (Rltb r_eps (sin m)) with false by (symmetry; apply Rltb_false; unfold m in *; lra).
    replace (Ratan2 (sin m) (cos m)) with m; [f_equal; rlazy; rpairs; ring| ].
    symmetry. rewrite <- (Rmult_1_l (cos m)), <- (Rmult_1_l (sin m)) at 1. apply Ratan2_polar; unfold m in *; lra. }
  rewrite X. intros E.
  apply (f_equal (fun z => snd (fst z))) in E.
  unfold qval in E. cbn [fst snd] in E.
  revert E. unfold q, q_new, q_exp. cbn [q0 Quat.q]. generalize (q_abs_imag (mkQ (ln 1) (v3_scale ex m) false)).
  revert S0. generalize (sin m) (cos m). clear. intros s c S0 t. rlazy. lra.
Qed.

(** ** ln inverts exp *)

Lemma c33_ln_exp_partial : forall q : Q,
  let m := v3_norm2 (Quat.q q) in
  m < PI -> (m = 0 /\ r_eps <= Rabs (q0 q)) \/ (r_eps < m /\ r_eps < sin m) ->
  qval (q_ln (q_exp q)) = qval q.
Proof.
  intros q m Hm D. pose proof (eps_pos K OK) as He. pose proof (eps_small K OK) as Hs.
  pose proof (v3_norm2_nonneg (Quat.q q)) as P. fold m in P.
  destruct (v3_direction (Quat.q q)) as (u & U & E). fold m in E.
  assert (Vq : qval q = (q0 q, m * vfun u 0, m * vfun u 1, m * vfun u 2)).
  { revert E. clear. clearbody m. rdes. rlazy. intros E. injection E as -> -> ->. rpairs; ring. }
  assert (X : qval (q_exp q) = qpolar (exp (q0 q)) m u).
  { apply c33_exp_polar; [exact U|rewrite Rabs_pos_eq by exact P; lra|exact Vq]. }
  assert (Fl : normalized (q_exp q) = false).
  { unfold q_exp. cbn [normalized]. rewrite q_norm2_sqrt. cbn [ltb R_POrd epsilon R_Float].
    apply Rltb_false. rewrite qnormsq_dot, <- v3_norm2_sq. fold m.
    rewrite <- (sqrt_square r_eps) by lra. apply sqrt_le_1_alt.
    destruct D as [[Z L]|[L _]].
    - rewrite Z. pose proof (Rabs_pos (q0 q)).
      assert (Rabs (q0 q) * Rabs (q0 q) = q0 q * q0 q) by (rewrite <- Rabs_mult; apply Rabs_pos_eq; nra).
      nra.
    - nra. }
  unfold q_ln. destruct (normalize_a_spec (q_exp q) (exp (q0 q)) m u) as [A B];
    [intros F; congruence|apply exp_pos|exact U|exact X| ].
  destruct (q_normalize_a (q_exp q)) as [p r]. cbn [fst snd] in A, B. subst r.
  apply qpolar_form in B as [B0 B1]. unfold q_abs_imag, q_imag, q_real. rewrite B0, B1, !Rmult_1_l.
  assert (S0 : 0 <= sin m) by (apply sin_ge_0; lra).
  rewrite v3_norm2_scale, (unit3_norm u U), Rmult_1_r, Rabs_pos_eq by exact S0.
  cbn [ltb R_POrd epsilon R_Float fatan2 fln div R_Num]. rewrite ln_exp.
  replace (Ratan2 (sin m) (cos m)) with m.
  2:{ symmetry. rewrite <- (Rmult_1_l (cos m)), <- (Rmult_1_l (sin m)) at 1. pose proof PI2_1. apply Ratan2_polar; lra. }
  rewrite Vq. destruct D as [[Z L]|[L L']].
  - rewrite Z, sin_0. replace (Rltb r_eps 0) with false by (symmetry; apply Rltb_false; lra).
    clear. rr.
  - replace (Rltb r_eps (sin m)) with true by (symmetry; now apply Rltb_true).
    rewrite v3_scale_scale. replace (sin m * (m / sin m)) with m by (field; lra).
    clear. clearbody m. rr.
Qed.

(** Close to a half-turn the axis is lost: the result differs from [q] by more
    than one. *)
Lemma c33_ln_exp_refuted : exists q : Q, v3_norm2 (Quat.q q) < PI
  /\ 1 < Rabs (vfun (Quat.q (q_ln (q_exp q))) 1 - vfun (Quat.q q) 1).
Proof.
  pose proof (eps_pos K OK) as He. pose proof (eps_small K OK) as Hs. pose proof PI2_1 as HP.
  set (m := PI - r_eps / 2). set (q := q_new 0 (v3_scale ey m)).
  assert (U : unit3 ey) by (rlazy; ring).
  assert (Nm : v3_norm2 (Quat.q q) = m).
  { unfold q, q_new. cbn [Quat.q]. rewrite v3_norm2_scale, (unit3_norm ey U), Rmult_1_r.
    apply Rabs_pos_eq. unfold m. lra. }
  exists q. split; [rewrite Nm; unfold m; lra| ].
  assert (S : 0 < sin m <= r_eps).
  { unfold m. rewrite sin_PI_x. assert (0 < r_eps / 2) by lra. pose proof (sin_lt_x _ H).
    split; [apply sin_gt_0| ]; lra. }
  assert (X : qval (q_exp q) = qpolar (exp 0) m ey).
  { apply c33_exp_polar; [exact U|right; rewrite Rabs_pos_eq; unfold m; lra| ].
    unfold q. clear. clearbody m. rr. }
  assert (Fl : normalized (q_exp q) = false).
  { unfold q_exp. cbn [normalized]. rewrite q_norm2_sqrt. cbn [ltb R_POrd epsilon R_Float].
    apply Rltb_false. rewrite qnormsq_dot, <- v3_norm2_sq, Nm.
    rewrite <- (sqrt_square r_eps) by lra. apply sqrt_le_1_alt. cbn [q0 q q_new].
    assert (r_eps <= m) by (unfold m; lra). nra. }
  assert (L : vfun (Quat.q (q_ln (q_exp q))) 1 = 0).
  { unfold q_ln. destruct (normalize_a_spec (q_exp q) (exp 0) m ey) as [A B];
      [intros F; congruence|apply exp_pos|exact U|exact X| ].
    destruct (q_normalize_a (q_exp q)) as [p r]. cbn [fst snd] in A, B. subst r.
    apply qpolar_form in B as [B0 B1]. unfold q_abs_imag, q_imag, q_real. rewrite B0, B1, !Rmult_1_l.
    rewrite v3_norm2_scale, (unit3_norm ey U), Rmult_1_r, Rabs_pos_eq by lra.
    cbn [ltb R_POrd epsilon R_Float fatan2 fln div R_Num].
    replace (Rltb r_eps (sin m)) with false by (symmetry; apply Rltb_false; lra).
    reflexivity. }
  rewrite L. replace (vfun (Quat.q q) 1) with m by (unfold q; clear; clearbody m; rlazy; ring).
  rewrite Rminus_0_l, Rabs_Ropp, Rabs_pos_eq; unfold m; lra.
Qed.

(** ** sqrt and pow *)

Lemma c33_sqrt_partial : forall q : Q, honest q -> qval q <> (0, 0, 0, 0) ->
  v3_norm2 (Quat.q q) = 0 \/ 2 * r_eps * sqrt (qnormsq q) < v3_norm2 (Quat.q q) ->
  qval (q_mul (q_sqrt q) (q_sqrt q)) = qval q.
Proof.
  intros q H N C. pose proof (eps_pos K OK) as He. pose proof (sqrt_pos (qnormsq q)) as Pn.
  assert (C' : clear_of_real_axis q) by (destruct C as [C|C]; [now left|right; nra]).
  destruct (ln_polar q H N C') as (u & a & U & P & Ha & E & D & M & L).
  set (n := sqrt (qnormsq q)) in *.
  assert (X : qval (q_sqrt q) = qpolar (exp (1 / 2 * ln n)) (1 / 2 * a) u).
  { unfold q_sqrt. apply (exp_scaled_ln q _ n u a (1 / 2) U P L); [ |cbn [one add div R_Num]; do 2 f_equal; field].
    rewrite Rabs_pos_eq by lra. destruct (Req_dec (v3_norm2 (Quat.q q)) 0) as [Z|Z].
    - (* on the real axis *)
      assert (S : sin a = 0).
      { apply qpolar_form in E as [_ E1]. rewrite E1, v3_norm2_scale, (unit3_norm u U), Rmult_1_r in Z.
        revert Z. unfold Rabs. destruct (Rcase_abs _); nra. }
      destruct D as [D|D]; [left; lra|right]. 
      destruct (Req_dec a PI) as [->|A1]; [pose proof PI2_1; pose proof (eps_small K OK); lra| ].
      assert (0 < sin a) by (apply sin_gt_0; lra). lra.
    - right. destruct C as [C|C]; [contradiction| ]. destruct M as [M|M]; [contradiction| ].
      assert (2 * r_eps < a) by nra. lra. }
  rewrite (qpolar_mul _ _ _ _ _ _ u U X X), E. f_equal; [ |field].
  rewrite <- exp_plus. replace (1 / 2 * ln n + 1 / 2 * ln n) with (ln n) by field. now apply exp_ln.
Qed.

(** pow with a natural exponent is the iterated product *)
Lemma c33_pow_nat_partial : forall (q : Q) k, honest q -> qval q <> (0, 0, 0, 0) ->
  clear_of_real_axis q -> qval (q_pow q (q_new_real (INR k))) = qval (qpow_nat q k).
Proof.
  intros q k H N C. destruct (ln_polar q H N C) as (u & a & U & P & Ha & E & D & _ & L).
  set (n := sqrt (qnormsq q)) in *.
  assert (A : forall j, qval (qpow_nat q j) = qpolar (exp (INR j * ln n)) (INR j * a) u).
  { induction j as [ |j IH].
    - cbn [qpow_nat INR]. rewrite !Rmult_0_l, exp_0. apply qpolar_form. rewrite cos_0, sin_0, Rmult_0_r, v3_scale_0.
      split; [cbn; ring|reflexivity].
    - cbn [qpow_nat]. rewrite (qpolar_mul _ _ _ _ _ _ u U E IH), S_INR. f_equal; [ |ring].
      rewrite <- (exp_ln n P) at 1. rewrite <- exp_plus. f_equal. ring. }
  rewrite A. unfold q_pow. apply (exp_scaled_ln q _ n u a (INR k) U P L).
  - destruct k as [ |k]; [left; cbn; ring| ]. destruct D as [->|D]; [left; ring|right].
    pose proof (eps_pos K OK). pose proof (pos_INR k). rewrite S_INR, Rabs_pos_eq by nra. nra.
  - clear. generalize (q_ln q) (INR k). rr.
Qed.

(** real exponents add up, wherever the three exponentials are exact *)
Lemma c33_pow_add_partial : forall (q : Q) s t, honest q -> qval q <> (0, 0, 0, 0) ->
  clear_of_real_axis q ->
  (forall x, x = s \/ x = t \/ x = s + t ->
     x = 0 \/ r_eps < Rabs x * v3_norm2 (Quat.q q) / sqrt (qnormsq q) \/ v3_norm2 (Quat.q q) = 0 /\ 1 <= Rabs x) ->
  qval (q_mul (q_pow q (q_new_real s)) (q_pow q (q_new_real t))) = qval (q_pow q (q_new_real (s + t))).
Proof.
  intros q s t H N C HX. destruct (ln_polar q H N C) as (u & a & U & P & Ha & E & D & M & L).
  set (n := sqrt (qnormsq q)) in *.
  assert (A : forall x, x = s \/ x = t \/ x = s + t -> qval (q_pow q (q_new_real x)) = qpolar (exp (x * ln n)) (x * a) u).
  { intros x Hx. unfold q_pow. apply (exp_scaled_ln q _ n u a x U P L).
    - destruct (HX x Hx) as [->|[G|[Z G]]]; [left; ring| | ].
      + right. rewrite Rabs_mult, (Rabs_pos_eq a) by lra. apply Rlt_le_trans with (1 := G).
        unfold Rdiv. rewrite Rmult_assoc. apply Rmult_le_compat_l; [apply Rabs_pos| ].
        apply (Rmult_le_reg_r n); [exact P| ]. rewrite Rmult_assoc, Rinv_l, Rmult_1_r by lra.
        destruct M as [->|M]; nra.
      + destruct D as [->|D]; [left; ring|right]. rewrite Rabs_mult, (Rabs_pos_eq a) by lra.
        pose proof (eps_pos K OK). nra.
    - clear. generalize (q_ln q). rr. }
  rewrite (A (s + t)) by auto. rewrite (qpolar_mul _ _ _ _ _ _ u U (A s (or_introl eq_refl)) (A t (or_intror (or_introl eq_refl)))).
  f_equal; [rewrite <- exp_plus; f_equal| ]; ring.
Qed.

(** close to the positive real axis the square root, too, forgets the axis *)
Lemma c33_sqrt_refuted : exists q : Q, honest q /\ qval q <> (0, 0, 0, 0)
  /\ qval (q_mul (q_sqrt q) (q_sqrt q)) <> qval q.
Proof.
  pose proof (eps_pos K OK) as He. pose proof (eps_small K OK) as Hs.
  set (m := r_eps / 2). set (q := q_new (cos m) (v3_scale ey (sin m))).
  assert (Hm : 0 < m) by (unfold m; lra). pose proof PI2_1 as HP.
  assert (S0 : 0 < sin m) by (apply sin_gt_0; unfold m in *; lra).
  pose proof (sin_lt_x m Hm) as SL.
  assert (V : qval q = qpolar 1 m ey).
  { apply qpolar_form. rewrite !Rmult_1_l. split; reflexivity. }
  assert (U : unit3 ey) by (rlazy; ring).
  assert (NZ : qval q <> (0, 0, 0, 0)).
  { intros Z. apply q_norm2_zero in Z. rewrite q_norm2_sqrt, (polar_norm q 1 m ey U V), Rmult_1_r, sqrt_1 in Z. lra. }
  exists q. split; [intros F; discriminate F|split; [exact NZ| ]].
  assert (X : exists x a, q_ln q = mkQ x (v3_scale ex a) false).
  { unfold q_ln. destruct (normalize_a_spec q 1 m ey) as [A B];
      [intros F; discriminate F|lra|exact U|exact V| ].
    destruct (q_normalize_a q) as [p r]. cbn [fst snd] in A, B. subst r.
    apply qpolar_form in B as [B0 B1]. unfold q_abs_imag, q_imag, q_real. rewrite B0, B1, !Rmult_1_l.
    rewrite v3_norm2_scale, (unit3_norm ey U), Rmult_1_r, Rabs_pos_eq by lra.
    cbn [ltb R_POrd epsilon R_Float fatan2 fln div R_Num].
    replace (Rltb r_eps (sin m)) with false by (symmetry; apply Rltb_false; unfold m in *; lra).
    exists (ln 1), (Ratan2 (sin m) (cos m)). f_equal. rlazy. rpairs; ring. }
  destruct X as (x & a & X). unfold q_sqrt. rewrite X. intros E.
  apply (f_equal (fun z => snd (fst z))) in E.
  assert (Y : forall t f, exists r i, q_exp (mkQ t (v3_scale ex f) false) = mkQ r (v3_scale ex i) (normalized (q_exp (mkQ t (v3_scale ex f) false)))).
  { intros t f. unfold q_exp. cbn [q0 Quat.q normalized].
    generalize (q_abs_imag (mkQ t (v3_scale ex f) false)). intros g.
    match goal with |- context [v3_scale (v3_scale ex f) ?k] => generalize k end. intros k.
    eexists. exists (f * k). f_equal. apply v3_scale_scale. }
  destruct (Y (x * (1 / (1 + 1))) (a * (1 / (1 + 1)))) as (r & i & Z).
  replace (q_scale _ _) with (mkQ (x * (1 / (1 + 1))) (v3_scale ex (a * (1 / (1 + 1)))) false) in E
    by (unfold q_scale; cbn [q0 Quat.q]; rewrite v3_scale_scale; reflexivity).
  rewrite Z in E. revert E. unfold q. revert S0. generalize (sin m) (cos m). clear.
  match goal with |- context [normalized ?q] => generalize (normalized q) end.
  intros f s c S0. rlazy. lra.
Qed.

(** ** C55: sin and cos *)

Lemma argq_spec (q : Q) :
  let m := v3_norm2 (Quat.q q) in
  m = 0 \/ r_eps < m * m ->
  exists u, unit3 u /\ Quat.q q = v3_scale u m /\ q_argq q = mkQ 0 u true.
Proof.
  intros m D. pose proof (eps_pos K OK) as He.
  pose proof (v3_norm2_nonneg (Quat.q q)) as P. fold m in P.
  unfold q_argq, q_normalize_q.
  assert (DD : q_dot (q_new 0 (Quat.q q)) (q_new 0 (Quat.q q)) = m * m).
  { unfold m. rewrite v3_norm2_sq. clear. rr. }
  cbn [zero R_Num]. rewrite DD. cbn [ltb R_POrd epsilon R_Float fsqrt].
  destruct D as [Z|L].
  - exists ex. split; [rlazy; ring| ]. rewrite Z in *. apply v3_norm2_zero in Z. rewrite Z. split; [rr| ].
    replace (Rltb r_eps (0 * 0)) with false by (symmetry; apply Rltb_false; lra). reflexivity.
  - replace (Rltb r_eps (m * m)) with true by (symmetry; now apply Rltb_true).
    rewrite sqrt_square by exact P. assert (N : m <> 0) by nra.
    exists (v3_scale (Quat.q q) (1 / m)). split; [ |split].
    + unfold unit3. rewrite v3_dot_scale, <- v3_norm2_sq. fold m. field. exact N.
    + rewrite v3_scale_scale. replace (1 / m * m) with 1 by (field; exact N). symmetry. apply v3_scale_1.
    + clearbody m. clear - N. rdes. rlazy. f_equal; [field; exact N|rpairs; field; exact N].
Qed.

Lemma sin_cos_exps (q : Q) :
  let m := v3_norm2 (Quat.q q) in
  m = 0 \/ r_eps < m * m -> q0 q = 0 \/ r_eps < Rabs (q0 q) ->
  exists u, unit3 u /\ Quat.q q = v3_scale u m /\ q_argq q = mkQ 0 u true
    /\ qval (q_exp (q_mul q (q_argq q))) = qpolar (exp (- m)) (q0 q) u
    /\ qval (q_exp (q_mul q (q_neg (q_argq q)))) = qpolar (exp m) (- q0 q) u.
Proof.
  intros m D1 D2. destruct (argq_spec q D1) as (u & U & E & A). fold m in E. exists u.
  split; [exact U|split; [exact E|split; [exact A| ]]]. rewrite A. split.
  - apply c33_exp_polar; [exact U|exact D2| ]. clearbody m. revert U E. clear. unfold unit3. rdes. rlazy.
    intros U E. injection E as -> -> ->. rpairs; try ring.
    apply (f_equal (Rmult m)) in U. lra.
  - apply c33_exp_polar; [exact U|rewrite Rabs_Ropp; destruct D2; [left; lra|now right]| ].
    clearbody m. revert U E. clear. unfold unit3. rdes. rlazy.
    intros U E. injection E as -> -> ->. rpairs; try ring.
    apply (f_equal (Rmult m)) in U. lra.
Qed.

(** [sin] never panics, whatever its argument *)
Lemma c55_sin_total : forall q : Q, q_sin q <> Panic.
Proof.
  intros q. unfold q_sin. intros P. apply (c32_div_panic_iff OK) in P as [_ P].
  pose proof (eps_small K OK) as Hs. revert P. cbn [one add R_Num].
  assert (U : qnormsq (q_argq q) = 1) by (apply (c32_normalize_q OK)).
  replace (qnormsq (q_scale (q_argq q) (1 + 1))) with (4 * qnormsq (q_argq q)) by (clear; rr).
  rewrite U. lra.
Qed.

(** outside the tolerance zones sin and cos are the analytic functions *)
Lemma c55_sin_cos : forall (q : Q) a m u, unit3 u ->
  0 <= m -> m = 0 \/ r_eps < m * m -> a = 0 \/ r_eps < Rabs a ->
  qval q = (a, m * vfun u 0, m * vfun u 1, m * vfun u 2) ->
  (exists s, q_sin q = Ok s /\
     qval s = (sin a * cosh m, cos a * sinh m * vfun u 0, cos a * sinh m * vfun u 1, cos a * sinh m * vfun u 2))
  /\ qval (q_cos q) =
     (cos a * cosh m, - sin a * sinh m * vfun u 0, - sin a * sinh m * vfun u 1, - sin a * sinh m * vfun u 2).
Proof.
  intros q a m u U Pm D1 D2 V.
  assert (E : Quat.q q = v3_scale u m).
  { apply qval_inj in V as [_ V]. rewrite V. apply v3_eq_scale. reflexivity. }
  assert (M : v3_norm2 (Quat.q q) = m).
  { rewrite E, v3_norm2_scale, (unit3_norm u U), Rmult_1_r. now apply Rabs_pos_eq. }
  assert (A0 : q0 q = a) by (apply qval_inj in V; tauto).
  pose proof (sin_cos_exps q) as X. cbv zeta in X. rewrite M, A0 in X.
  destruct (X D1 D2) as (u' & U' & E' & A & E1 & E2). clear X.
  (* both directions agree unless m = 0, and then they do not matter *)
  assert (S : v3_scale u' (sinh m) = v3_scale u (sinh m)).
  { destruct (Req_dec m 0) as [->|N]; [rewrite sinh_0, !v3_scale_0; reflexivity| ].
    f_equal. rewrite E' in E. apply (f_equal (fun v => v3_scale v (/ m))) in E.
    rewrite !v3_scale_scale, !Rinv_r, !v3_scale_1 in E by exact N. exact E. }
  pose proof (c55_sin_total q) as NP. destruct (q_sin q) as [s| ] eqn:QS; [ |contradiction]. clear NP.
  assert (IV : exists i, q_inverse (q_scale (q_argq q) (1 + 1)) = Some i
                /\ qval i = (0, - / 2 * vfun u' 0, - / 2 * vfun u' 1, - / 2 * vfun u' 2)).
  { unfold q_inverse. rewrite A. cbn [normalized q_scale negb].
    replace (q_abs2 (q_scale (mkQ 0 u' true) (1 + 1))) with 4.
    2:{ transitivity (4 * v3_dot u' u'); [rewrite U'; ring|clear; rr]. }
    replace (nearly_zero 4) with false.
    2:{ symmetry. apply (nearly_zero_false OK). rewrite Rabs_pos_eq by lra.
        pose proof (eps_small K OK). lra. }
    cbn [negb]. eexists. split; [reflexivity| ]. clear. rdes. rlazy. rpairs; field. }
  destruct IV as (i & I1 & I2).
  assert (SB : cosh m = (exp m + exp (- m)) / 2 /\ sinh m = (exp m - exp (- m)) / 2) by (split; reflexivity).
  destruct SB as [CH SH]. split.
  - exists s. split; [reflexivity| ]. unfold q_sin, q_div in QS. cbn [one add R_Num] in QS. rewrite I1 in QS.
    cbn [unwrap bind] in QS. injection QS as <-.
    transitivity (sin a * cosh m, cos a * vfun (v3_scale u (sinh m)) 0, cos a * vfun (v3_scale u (sinh m)) 1, cos a * vfun (v3_scale u (sinh m)) 2);
      [ |clear; generalize (sinh m); rr].
    rewrite <- S, CH, SH. rewrite (c26_mul_hamilton R_ring), I2.
    replace (qval (q_sub _ _)) with
      ((exp (- m) - exp m) * cos a, (exp (- m) + exp m) * sin a * vfun u' 0,
       (exp (- m) + exp m) * sin a * vfun u' 1, (exp (- m) + exp m) * sin a * vfun u' 2).
    2:{ apply qpolar_form in E1 as [B0 B1]. apply qpolar_form in E2 as [C0 C1].
        unfold q_sub, q_new. rewrite B0, B1, C0, C1, cos_neg, sin_neg. clear. rr. }
    unfold unit3 in U'. revert U'. generalize (exp m) (exp (- m)) (sin a) (cos a). clear. rdes. rlazy.
    intros e f s c U. rpairs; try field.
    apply (f_equal (Rmult ((f + e) * s))) in U. lra.
  - transitivity (cos a * cosh m, - sin a * vfun (v3_scale u (sinh m)) 0, - sin a * vfun (v3_scale u (sinh m)) 1, - sin a * vfun (v3_scale u (sinh m)) 2);
      [ |clear; generalize (sinh m); rr].
    rewrite <- S, CH, SH. unfold q_cos.
    apply qpolar_form in E1 as [B0 B1]. apply qpolar_form in E2 as [C0 C1].
    unfold q_div_s, q_add, q_new. cbn [q0 Quat.q]. rewrite B0, B1, C0, C1, cos_neg, sin_neg.
    generalize (exp m) (exp (- m)) (sin a) (cos a). clear. rdes. rlazy. intros. rpairs; field.
Qed.

(** hence the Pythagorean identity *)
Lemma c55_pythagoras : forall (q s : Q),
  v3_norm2 (Quat.q q) = 0 \/ r_eps < v3_dot (Quat.q q) (Quat.q q) ->
  q0 q = 0 \/ r_eps < Rabs (q0 q) -> q_sin q = Ok s ->
  qval (q_add (q_mul s s) (q_mul (q_cos q) (q_cos q))) = (1, 0, 0, 0).
Proof.
  intros q s D1 D2 QS. destruct (v3_direction (Quat.q q)) as (u & U & E).
  rewrite <- v3_norm2_sq in D1. pose proof (v3_norm2_nonneg (Quat.q q)) as P.
  set (m := v3_norm2 (Quat.q q)) in *. clearbody m.
  destruct (c55_sin_cos q (q0 q) m u U P D1 D2) as [(s' & S1 & S2) C].
  { revert E. clear. rdes. rlazy. intros E. injection E as -> -> ->. rpairs; ring. }
  rewrite QS in S1. injection S1 as <-.
  assert (A : forall a b : Q, qval (q_add a b) = let '(x, y, z, w) := qval a in let '(x', y', z', w') := qval b in
     (x + x', y + y', z + z', w + w')) by (clear; rr).
  rewrite A, !(c26_mul_hamilton R_ring), S2, C.
  pose proof (sin2_cos2' (q0 q)) as T. assert (H : cosh m * cosh m - sinh m * sinh m = 1).
  { unfold cosh, sinh. assert (X : exp m * exp (- m) = 1) by (rewrite <- exp_plus, Rplus_opp_r; apply exp_0).
    transitivity (exp m * exp (- m)); [field|exact X]. }
  unfold unit3 in U. revert T H U. generalize (sin (q0 q)) (cos (q0 q)) (cosh m) (sinh m). clear. rdes. rlazy.
  intros s c h g T H U. rpairs; try ring.
  transitivity ((s * s + c * c) * (h * h) - (c * c + s * s) * (g * g) * (x * x + y * y + z * z)); [ring| ].
  rewrite U, T. replace (c * c + s * s) with 1 by lra. lra.
Qed.

End R.

(** ** Concrete cases *)
Section Examples.
#[local] Existing Instance f64_consts.
Notation K := f64_consts.
Example C33_example : let q := q_new_from 1 2 3 4 in
  honest q /\ qval q <> (0, 0, 0, 0) /\ clear_of_real_axis (K := K) q
  /\ 2 * r_eps * sqrt (qnormsq q) < v3_norm2 (H0 := R_Float K) (Quat.q q).
Proof.
  intros q. assert (A : 2 * r_eps * sqrt (qnormsq q) < v3_norm2 (H0 := R_Float K) (Quat.q q)).
  { pose proof (eps_small K f64_consts_ok) as Hs. pose proof (eps_pos K f64_consts_ok) as He.
    replace (v3_norm2 (Quat.q q)) with (sqrt 29).
    2:{ rewrite (c18_norm2_dot D3 (Quat.q q) : v3_norm2 (Quat.q q) = sqrt (v3_dot (Quat.q q) (Quat.q q))).
        f_equal. rlazy. ring. }
    replace (qnormsq q) with 30 by (rlazy; ring).
    assert (sqrt 30 < sqrt 36) by (apply sqrt_lt_1; lra).
    assert (sqrt 25 < sqrt 29) by (apply sqrt_lt_1; lra).
    replace 36 with (6 * 6) in H by ring. replace 25 with (5 * 5) in H0 by ring.
    rewrite sqrt_square in H, H0 by lra. nra. }
  split; [intros F; discriminate F|split; [intros E; injection E; intros; lra|split; [right| exact A]]].
  pose proof (eps_pos K f64_consts_ok). pose proof (sqrt_pos (qnormsq q)). nra.
Qed.
Example C55_example : let q := q_new_from 1 1 0 0 in
  (v3_norm2 (H0 := R_Float K) (Quat.q q) = 0 \/ r_eps < v3_dot (Quat.q q) (Quat.q q))
  /\ (q0 q = 0 \/ r_eps < Rabs (q0 q)).
Proof.
  intros q. pose proof (eps_small K f64_consts_ok) as Hs. split; right.
  - replace (v3_dot (Quat.q q) (Quat.q q)) with 1 by (rlazy; ring). lra.
  - cbn [q0 q q_new_from]. rewrite Rabs_R1. lra.
Qed.
End Examples.
