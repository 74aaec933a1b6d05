(** * ProofsEuler: C31, rotation_to_euler *)

From Coq Require Import List Arith Lia Bool Reals Lra Psatz.
From Verif Require Import Base Scalar Vec Mat2 Mat3 Mat4 Mat6 Slices MatLoops MatOps Quat Transf
  DualQuat RingDet Spec Entries DetEntries InstR RFacts TrigFacts ProofsRing ProofsInverse ProofsNorm
  ProofsQuat ProofsRigid ProofsRot ProofsQuatR.
Import ListNotations.
Local Open Scope R_scope.

Lemma unit_pair x y : x * x + y * y = 1 -> -1 <= x <= 1 /\ -1 <= y <= 1.
Proof. intros H. split; nra. Qed.
Lemma sq_bound x w : 0 <= w -> x * x <= w * w -> - w <= x <= w.
Proof. intros. nra. Qed.
Lemma prod_bound x y u v : - u <= x <= u -> - v <= y <= v -> - (u * v) <= x * y <= u * v.
Proof.
  intros Hx Hy. assert (A : Rabs x <= u) by (apply Rabs_le; lra). assert (B : Rabs y <= v) by (apply Rabs_le; lra).
  assert (C : Rabs (x * y) <= u * v).
  { rewrite Rabs_mult. apply Rmult_le_compat; auto using Rabs_pos. }
  revert C. unfold Rabs. destruct (Rcase_abs _); lra.
Qed.
Lemma sq_sum_nz x y w : 0 < w -> w * w = x * x + y * y -> x <> 0 \/ y <> 0.
Proof. intros P W. destruct (Req_dec x 0) as [->| ]; [right|now left]. intros ->. nra. Qed.
Lemma gimbal_bounds w k si rho : 0 <= w -> 0 < si -> si * si = 1 - w * w -> 0 < rho ->
  rho * rho = 1 - k * k -> k * k <= w * w ->
  si <= rho <= 1 /\ 0 <= 1 - rho * si <= w * w /\ 0 <= rho - si <= w * w /\ w * w <= w.
Proof.
  intros. assert (si <= 1) by nra. assert (si <= rho) by nra. assert (rho <= 1) by nra.
  assert (w <= 1) by nra. repeat split; nra.
Qed.

Section R.
Context {K : RConsts} (OK : RConstsOk K).

(** cosine of the pitch: length of the first two entries of the first column *)
Definition cos_pitch (r : M33 R) : R := sqrt (mfun r 0 0 * mfun r 0 0 + mfun r 1 0 * mfun r 1 0).

(** the rotation described by the extracted angles *)
Definition rebuilt (r : M33 R) : M33 R :=
  let '(y, p, w) := rotation_to_euler r in euler_to_rotation y p w None.

Definition pitch_of (r : M33 R) : R := snd (fst (rotation_to_euler r)).

Lemma pitch_eq r : pitch_of r = Ratan2 (- mfun r 2 0) (cos_pitch r).
Proof.
  unfold pitch_of, rotation_to_euler. rdes. cbv zeta.
  repeat match goal with |- context [if ?b then _ else _] => destruct b end; reflexivity.
Qed.

Lemma c31_pitch_range : forall r : M33 R, - (PI / 2) <= pitch_of r <= PI / 2.
Proof.
  intros r. rewrite pitch_eq. pose proof (sqrt_pos (mfun r 0 0 * mfun r 0 0 + mfun r 1 0 * mfun r 1 0)) as P.
  fold (cos_pitch r) in P. set (w := cos_pitch r) in *. clearbody w. generalize (- mfun r 2 0). intros s.
  pose proof PI_RGT_0. unfold Ratan2. destruct (Rlt_dec 0 w) as [L|L].
  - pose proof (atan_bound (s / w)). lra.
  - destruct (Rlt_dec w 0); [lra| ]. 
    repeat match goal with |- context [if ?b then _ else _] => destruct b end; lra.
Qed.

Lemma pitch_trig r : SO3 r ->
  cos (pitch_of r) = cos_pitch r /\ sin (pitch_of r) = - mfun r 2 0
  /\ cos_pitch r * cos_pitch r = mfun r 0 0 * mfun r 0 0 + mfun r 1 0 * mfun r 1 0
  /\ 0 <= cos_pitch r.
Proof.
  intros H. rewrite pitch_eq.
  assert (S : cos_pitch r * cos_pitch r = mfun r 0 0 * mfun r 0 0 + mfun r 1 0 * mfun r 1 0)
    by (apply sqrt_sqrt; nra).
  destruct (Ratan2_unit (cos_pitch r) (- mfun r 2 0)) as [C Sn].
  { rewrite S. revert H. clear. rdes. intros H. apply SO3_relations in H as ((H & _) & _).
    rlazy. lra. }
  repeat split; auto. apply sqrt_pos.
Qed.

(** the gimbal-lock branches: the roll is set to zero and the error is at most
    twice the cosine of the pitch *)
Lemma gimbal (r : M33 R) (s : R) y p : SO3 r -> s * s = 1 -> 0 < s * sin p -> cos p = cos_pitch r ->
  sin p = - mfun r 2 0 -> y = Ratan2 (s * mfun r 1 2) (s * mfun r 0 2) ->
  forall i j, (i < 3)%nat -> (j < 3)%nat ->
  Rabs (mfun (euler_to_rotation y p 0 None) i j - mfun r i j) <= 2 * cos_pitch r.
Proof.
  intros H S2 Sp C Sn ->.
  destruct (pitch_trig r H) as (_ & _ & W & W0).
  set (w := cos_pitch r) in *. clearbody w.
  pose proof (sin2_cos2' p) as SC.
  revert H W Sn. destruct r as [[a [b [c []]]] [[d [e [f []]]] [[g [h [k []]]] []]]].
  intros H W Sn. apply SO3_relations in H.
  destruct H as ((C1 & C2 & C3 & C4 & C5 & C6) & (R1 & R2 & R3 & R4 & R5 & R6) & (X1 & X2 & X3 & X4 & X5 & X6 & X7 & X8 & X9)).
  change (w * w = a * a + d * d) in W. change (sin p = - g) in Sn.
  cbn [mfun alist nth map] in *.
  set (si := s * sin p) in *.
  assert (Si2 : si * si = 1 - w * w).
  { unfold si. rewrite <- C. replace (s * sin p * (s * sin p)) with (s * s * (sin p * sin p)) by ring. rewrite S2. lra. }
  assert (K2 : h * h + k * k = w * w) by lra.
  assert (Kw : k * k <= w * w) by (clear - K2; nra).
  assert (Ni : 0 < 1 - k * k) by (clear - Kw Si2 Sp; nra).
  assert (N : s * c <> 0 \/ s * f <> 0).
  { destruct (Req_dec (s * c) 0) as [Z|Z]; [ |now left].
    destruct (Req_dec (s * f) 0) as [Z'|Z']; [ |now right].
    exfalso. assert (Z2 : s * s * (c * c + f * f) = 0) by (replace (s * s * (c * c + f * f)) with (s * c * (s * c) + s * f * (s * f)) by ring; rewrite Z, Z'; ring).
    rewrite S2 in Z2. lra. }
  destruct (Ratan2_spec (s * c) (s * f) N) as (Pr & Cy & Sy & _).
  replace (s * c * (s * c) + s * f * (s * f)) with (c * c + f * f) in * by
    (replace (s * c * (s * c) + s * f * (s * f)) with (s * s * (c * c + f * f)) by ring; rewrite S2; ring).
  assert (Rs : sqrt (c * c + f * f) * sqrt (c * c + f * f) = 1 - k * k) by (rewrite sqrt_sqrt by (clear; nra); lra).
  set (rho := sqrt (c * c + f * f)) in *. clearbody rho.
  change (Ratan2 (s * mfun _ 1 2) (s * mfun _ 0 2)) with (Ratan2 (s * f) (s * c)).
  set (y := Ratan2 (s * f) (s * c)) in *.
  assert (Ec : c = s * rho * cos y) by (rewrite Cy; replace c with (s * s * c) at 1 by (rewrite S2; ring); field; lra).
  assert (Ef : f = s * rho * sin y) by (rewrite Sy; replace f with (s * s * f) at 1 by (rewrite S2; ring); field; lra).
  pose proof (sin2_cos2' y) as YY.
  clear Cy Sy N. clearbody y.
  set (cy := cos y) in *. set (sy := sin y) in *.
  destruct (unit_pair _ _ YY) as [Sb Cb].
  assert (SP : sin p = s * si) by (unfold si; replace (s * (s * sin p)) with (s * s * sin p) by ring; rewrite S2; ring).
  assert (G : g = - (s * si)) by lra.
  destruct (gimbal_bounds w k si rho W0 Sp Si2 Pr Rs Kw) as (RB & P1 & P2 & Sq).
  assert (Ba := sq_bound a w W0 ltac:(clear - W; nra)). assert (Bd := sq_bound d w W0 ltac:(clear - W; nra)).
  assert (Bh := sq_bound h w W0 ltac:(clear - K2; nra)). assert (Bk := sq_bound k w W0 Kw).
  assert (Sc := sq_bound s 1 Rle_0_1 ltac:(lra)).
  assert (M : forall x z t, -1 <= x <= 1 -> 0 <= z <= t -> - t <= x * z <= t).
  { clear. intros x z t Hx Hz. pose proof (prod_bound x z 1 t). lra. }
  pose proof (prod_bound d k w w Bd Bk) as Wd. pose proof (prod_bound k a w w Bk Ba) as Wa.
  assert (scy : -1 <= s * cy <= 1) by (pose proof (prod_bound s cy 1 1); lra).
  assert (ssy : -1 <= s * sy <= 1) by (pose proof (prod_bound s sy 1 1); lra).
  intros i j Hi Hj. apply Rabs_le.
  assert (V : mfun (euler_to_rotation y p 0 None) i j =
    mfun ([| [| cy * w; - sy; cy * (s * si) |]; [| sy * w; cy; sy * (s * si) |]; [| - (s * si); 0; w |] |] : M33 R) i j).
  { f_equal. rewrite <- SP, <- C. unfold cy, sy. clear. rlazy. rewrite sin_0, cos_0. rpairs; ring. }
  rewrite V. clear V.
  destruct i as [ |[ |[ |i]]]; [ | | |lia]; (destruct j as [ |[ |[ |j]]]; [ | | |lia]);
    unfold mfun; cbn [map alist nth aget]; cbn -[Rplus Rmult Rminus Ropp IZR Rle].
  - pose proof (M cy w w Cb ltac:(lra)). lra.
  - replace b with (- (rho * si * sy) - d * k).
    2:{ rewrite <- X2, G, Ef. replace (s * rho * sy * - (s * si)) with (- (s * s * (rho * si * sy))) by ring. rewrite S2. ring. }
    pose proof (M sy (1 - rho * si) (w * w) Sb P1). lra.
  - rewrite Ec. pose proof (M (s * cy) (rho - si) (w * w) scy P2). lra.
  - pose proof (M sy w w Sb ltac:(lra)). lra.
  - replace e with (rho * si * cy + k * a).
    2:{ rewrite <- X5, G, Ec. replace (- (s * si) * (s * rho * cy)) with (- (s * s * (rho * si * cy))) by ring. rewrite S2. ring. }
    pose proof (M cy (1 - rho * si) (w * w) Cb P1). lra.
  - rewrite Ef. pose proof (M (s * sy) (rho - si) (w * w) ssy P2). lra.
  - rewrite G. lra.
  - lra.
  - lra.
Qed.

Lemma regular (r : M33 R) y p q : SO3 r -> 0 < cos_pitch r -> cos p = cos_pitch r ->
  sin p = - mfun r 2 0 -> y = Ratan2 (mfun r 1 0) (mfun r 0 0) -> q = Ratan2 (mfun r 2 1) (mfun r 2 2) ->
  euler_to_rotation y p q None = r.
Proof.
  intros H P C Sn -> ->. destruct (pitch_trig r H) as (_ & _ & W & _).
  set (w := cos_pitch r) in *. clearbody w.
  revert H W Sn. destruct r as [[a [b [c []]]] [[d [e [f []]]] [[g [h [k []]]] []]]].
  intros H W Sn. apply SO3_relations in H.
  destruct H as ((C1 & C2 & C3 & C4 & C5 & C6) & (R1 & R2 & R3 & R4 & R5 & R6) & (X1 & X2 & X3 & X4 & X5 & X6 & X7 & X8 & X9)).
  change (w * w = a * a + d * d) in W. change (sin p = - g) in Sn.
  change (euler_to_rotation (Ratan2 d a) p (Ratan2 h k) None = [| [| a; b; c |]; [| d; e; f |]; [| g; h; k |] |]).
  assert (W' : w * w = k * k + h * h) by lra.
  assert (N1 : a <> 0 \/ d <> 0) by (apply (sq_sum_nz a d w P W)).
  assert (N2 : k <> 0 \/ h <> 0) by (apply (sq_sum_nz k h w P W')).
  destruct (Ratan2_spec a d N1) as (_ & Cy & Sy & _). destruct (Ratan2_spec k h N2) as (_ & Cr & Sr & _).
  rewrite <- W, sqrt_square in Cy, Sy by lra. rewrite <- W', sqrt_square in Cr, Sr by lra.
  set (y := Ratan2 d a) in *. set (q := Ratan2 h k) in *. clearbody y q.
  rlazy. rewrite Cy, Sy, Cr, Sr, C, Sn. unfold Rdiv.
  assert (D : forall x z, x = z * (w * w) -> x * / w * / w = z) by (intros x z ->; field; lra).
  rpairs.
  - field. lra.
  - rewrite <- (D (- a * g * h - d * k) b); [ring| ]. rewrite W, <- X9.
    transitivity (a * (a * b + d * e - (a * b + d * e + g * h)) - d * (a * e - b * d)); [ring|rewrite C4; ring].
  - rewrite <- (D (- a * g * k + d * h) c); [ring| ]. rewrite W, <- X8.
    transitivity (a * (a * c + d * f - (a * c + d * f + g * k)) + d * (c * d - a * f)); [ring|rewrite C5; ring].
  - field. lra.
  - rewrite <- (D (- d * g * h + a * k) e); [ring| ]. rewrite W, <- X9.
    transitivity (d * (a * b + d * e - (a * b + d * e + g * h)) + a * (a * e - b * d)); [ring|rewrite C4; ring].
  - rewrite <- (D (- d * g * k - a * h) f); [ring| ]. rewrite W, <- X8.
    transitivity (d * (a * c + d * f - (a * c + d * f + g * k)) - a * (c * d - a * f)); [ring|rewrite C5; ring].
  - ring.
  - field. lra.
  - field. lra.
Qed.

(** what the two tests of the source mean *)
Lemma near_half_pi p s : s * s = 1 -> - (PI / 2) <= p <= PI / 2 ->
  nearly_equal p (s * (PI / 2)) r_eps = true -> cos p < 4 * r_eps /\ 0 < s * sin p.
Proof.
  intros S2 Hp H. pose proof (eps_pos K OK) as He. pose proof (eps_small K OK) as Hs.
  pose proof PI2_1 as P1. pose proof PI_4 as P4.
  assert (Hs' : s = 1 \/ s = -1) by (assert (E : (s - 1) * (s + 1) = 0) by lra; apply Rmult_integral in E; lra).
  assert (D : Rabs (p - s * (PI / 2)) < 4 * r_eps).
  { apply (nearly_equal_iff OK) in H; [ |exact He].
    destruct (Req_EM_T (s * (PI / 2)) 0) as [Z|Z]; [lra| ].
    destruct (Req_EM_T p 0) as [Z'|Z']; [lra| ].
    apply Rlt_le_trans with (1 := H). rewrite (Rmult_comm 4). apply Rmult_le_compat_l; [lra| ].
    apply Rle_trans with (1 := Rmin_l _ _). rewrite Rabs_mult.
    replace (Rabs s) with 1 by (destruct Hs' as [->| ->]; unfold Rabs; destruct Rcase_abs; lra).
    rewrite (Rabs_pos_eq (PI / 2)) by lra. assert (Rabs p <= PI / 2) by (apply Rabs_le; lra). lra. }
  apply Rabs_def2 in D.
  destruct Hs' as [->| ->].
  - assert (C : cos p = sin (PI / 2 - p)) by (rewrite sin_shift; reflexivity).
    assert (X : 0 <= PI / 2 - p) by lra.
    assert (sin (PI / 2 - p) <= PI / 2 - p) by (destruct X as [X|<-]; [left; now apply sin_lt_x|rewrite sin_0; lra]).
    split; [lra| ]. assert (0 < sin p) by (apply sin_gt_0; lra). lra.
  - assert (C : cos p = sin (PI / 2 + p)) by (rewrite cos_sin; reflexivity).
    assert (X : 0 <= PI / 2 + p) by lra.
    assert (sin (PI / 2 + p) <= PI / 2 + p) by (destruct X as [X|<-]; [left; now apply sin_lt_x|rewrite sin_0; lra]).
    split; [lra| ]. assert (0 < sin (- p)) by (apply sin_gt_0; lra). rewrite sin_neg in H1. lra.
Qed.

Lemma rebuilt_cases r : SO3 r ->
  (cos_pitch r < 4 * r_eps /\ forall i j, (i < 3)%nat -> (j < 3)%nat ->
     Rabs (mfun (rebuilt r) i j - mfun r i j) <= 2 * cos_pitch r)
  \/ rebuilt r = r.
Proof.
  intros H. pose proof (c31_pitch_range r) as PR. destruct (pitch_trig r H) as (C & S & W & W0).
  unfold rebuilt. pose proof (pitch_eq r) as PE.
  unfold rotation_to_euler. unfold pitch_of in *. 
  cbn [FRAC_PI_2 one zero mul neg R_Num R_Signed R_Float epsilon fatan2 fsqrt add].
  match goal with |- context [nearly_equal ?p _ _] => change p with (Ratan2 (- mfun r 2 0) (cos_pitch r)) end.
  rewrite <- PE. set (p := snd (fst (rotation_to_euler r))) in *. clearbody p.
  replace (- (1) * (PI / 2)) with (-1 * (PI / 2)) by ring.
  destruct (nearly_equal p (-1 * (PI / 2)) r_eps) eqn:N1.
  - left. destruct (near_half_pi p (-1) ltac:(lra) PR N1) as [Cp Sp]. split; [lra| ].
    apply (gimbal r (-1) _ p H ltac:(lra) Sp C S).
    replace (-1 * mfun r 1 2) with (- mfun r 1 2) by ring. replace (-1 * mfun r 0 2) with (- mfun r 0 2) by ring.
    reflexivity.
  - destruct (nearly_equal p (PI / 2) r_eps) eqn:N2.
    + left. rewrite <- (Rmult_1_l (PI / 2)) in N2.
      destruct (near_half_pi p 1 ltac:(lra) PR N2) as [Cp Sp]. split; [lra| ].
      apply (gimbal r 1 _ p H ltac:(lra) Sp C S). rewrite !Rmult_1_l. reflexivity.
    + right. apply regular; auto.
      destruct W0 as [W0|W0]; [exact W0|exfalso].
      assert (C0 : cos p = 0) by lra. pose proof PI_RGT_0.
      assert (Hp : p = PI / 2 \/ p = - (PI / 2)).
      { destruct (Req_dec p (PI / 2)) as [ |Q1]; [auto| ]. destruct (Req_dec p (- (PI / 2))) as [ |Q2]; [auto| ].
        assert (0 < cos p) by (apply cos_gt_0; lra). lra. }
      destruct Hp as [->| ->].
      * rewrite nearly_equal_refl in N2. discriminate.
      * replace (-1 * (PI / 2)) with (- (PI / 2)) in N1 by ring. rewrite nearly_equal_refl in N1. discriminate.
Qed.

(** exact at gimbal lock and outside the tolerance of the test *)
Lemma c31_exact : forall r : M33 R, SO3 r ->
  cos_pitch r = 0 \/ 4 * r_eps <= cos_pitch r -> rebuilt r = r.
Proof.
  intros r H D. destruct (rebuilt_cases r H) as [[L B]|E]; [ |exact E].
  destruct D as [Z|D]; [ |lra]. apply mfun_ext. intros i j Hi Hj.
  specialize (B i j Hi Hj). rewrite Z, Rmult_0_r in B.
  assert (X : Rabs (mfun (rebuilt r) i j - mfun r i j) = 0) by (pose proof (Rabs_pos (mfun (rebuilt r) i j - mfun r i j)); lra).
  destruct (Req_dec (mfun (rebuilt r) i j - mfun r i j) 0) as [Y|Y]; [lra| ].
  apply Rabs_pos_lt in Y. lra.
Qed.

(** for every rotation each entry is right up to eight epsilon *)
Lemma c31_approx : forall r : M33 R, SO3 r -> forall i j, (i < 3)%nat -> (j < 3)%nat ->
  Rabs (mfun (rebuilt r) i j - mfun r i j) <= 8 * r_eps.
Proof.
  intros r H i j Hi Hj. pose proof (eps_pos K OK). destruct (rebuilt_cases r H) as [[L B]| ->].
  - specialize (B i j Hi Hj). lra.
  - rewrite Rminus_diag_eq, Rabs_R0 by reflexivity. lra.
Qed.

(** inside the tolerance the roll is dropped *)
Lemma c31_exact_everywhere_refuted : exists r : M33 R, SO3 r /\ rebuilt r <> r.
Proof.
  pose proof (eps_pos K OK) as He. pose proof (eps_small K OK) as Hs. pose proof PI2_1 as P1.
  set (d := r_eps / 2). set (r := euler_to_rotation 0 (PI / 2 - d) (PI / 2) None).
  assert (Hd : 0 < d) by (unfold d; lra).
  assert (H : SO3 r) by apply c30_euler_SO3. exists r. split; [exact H| ].
  assert (S0 : 0 < sin d) by (apply sin_gt_0; unfold d in *; lra).
  assert (C0 : 0 < cos d) by (apply cos_gt_0; unfold d in *; lra).
  assert (E : r = [| [| sin d; cos d; 0 |]; [| 0; 0; -1 |]; [| - cos d; sin d; 0 |] |]).
  { unfold r. rlazy. rewrite sin_0, cos_0, sin_PI2, cos_PI2, cos_shift, sin_shift. rpairs; ring. }
  assert (CP : cos_pitch r = sin d).
  { unfold cos_pitch. rewrite E. unfold mfun. cbn [map alist nth]. cbn -[sqrt Rplus Rmult sin cos].
    replace (sin d * sin d + 0 * 0) with (sin d * sin d) by ring. apply sqrt_square. lra. }
  assert (PP : pitch_of r = PI / 2 - d).
  { pose proof (c31_pitch_range r). destruct (pitch_trig r H) as (C & S & _). pose proof PI_RGT_0.
    apply angle_unique; [lra|unfold d in *; lra| | ].
    - rewrite C, CP, cos_shift. reflexivity.
    - rewrite S, sin_shift, E. rlazy. ring. }
  intros X. apply (f_equal (fun m => mfun m 2 1)) in X.
  replace (mfun r 2 1) with (sin d) in X by (rewrite E; reflexivity).
  revert X. unfold rebuilt. unfold rotation_to_euler.
  match goal with |- context [nearly_equal ?p _ _] => change p with (Ratan2 (- mfun r 2 0) (cos_pitch r)) end.
  rewrite <- pitch_eq, PP.
  cbn [FRAC_PI_2 one zero mul neg R_Num R_Signed R_Float epsilon fatan2 fsqrt add].
  replace (nearly_equal (PI / 2 - d) (- (1) * (PI / 2)) r_eps) with false.
  2:{ symmetry. apply not_true_is_false. intros Y.
      replace (- (1) * (PI / 2)) with (-1 * (PI / 2)) in Y by ring.
      apply near_half_pi in Y; [ |lra|unfold d in *; lra]. rewrite sin_shift in Y. lra. }
  replace (nearly_equal (PI / 2 - d) (PI / 2) r_eps) with true.
  2:{ symmetry. apply (nearly_equal_iff OK); [exact He| ].
      destruct (Req_EM_T (PI / 2) 0); [lra| ]. destruct (Req_EM_T (PI / 2 - d) 0); [unfold d in *; lra| ].
      replace (PI / 2 - d - PI / 2) with (- d) by ring. rewrite Rabs_Ropp, Rabs_pos_eq by lra.
      pose proof (max_large K OK).
      assert (1 <= Rmin (Rabs (PI / 2 - d) + Rabs (PI / 2)) r_max).
      { apply Rmin_glb; [ |lra]. rewrite !Rabs_pos_eq; unfold d in *; lra. }
      assert (r_eps * 1 <= r_eps * Rmin (Rabs (PI / 2 - d) + Rabs (PI / 2)) r_max) by (apply Rmult_le_compat_l; lra).
      unfold d in *. lra. }
  match goal with |- context [euler_to_rotation ?y _ _ _] => generalize y end. intros y.
  intros X. assert (Y : sin d = 0); [rewrite <- X; rlazy; rewrite sin_0, cos_0; ring|lra].
Qed.

End R.

(** ** Concrete cases *)
Section Examples.
#[local] Existing Instance f64_consts.
(** exact gimbal lock, and a generic rotation *)
Example C31_example_gimbal : let r : M33 R := [| [| 0; 0; 1 |]; [| 0; 1; 0 |]; [| -1; 0; 0 |] |] in
  SO3 r /\ rebuilt r = r.
Proof.
  intros r. assert (H : SO3 r).
  { repeat split; rlazy; try (rpairs; ring); try ring. }
  split; [exact H|apply (c31_exact f64_consts_ok r H)]. left.
  unfold cos_pitch. rewrite <- sqrt_0. f_equal. rlazy. ring.
Qed.
Example C31_example_halfturn : rebuilt halfturn_x = halfturn_x.
Proof.
  apply (c31_exact f64_consts_ok _ (proj1 C28_halfturn)). right.
  replace (cos_pitch halfturn_x) with 1; [pose proof (eps_small _ f64_consts_ok); lra| ].
  symmetry. rewrite <- sqrt_1. unfold cos_pitch. f_equal. rlazy. ring.
Qed.
End Examples.
