(** * ProofsFloatEig: the eigenvalues of a 2x2 float matrix (C93) *)

From Coq Require Import List Arith ZArith Reals Bool Lra Lia.
From Flocq Require Import Core Relative Sterbenz IEEE754.BinarySingleNaN.
From Verif Require Import Base Scalar Vec Mat2 Mat3 Mat4 Mat5 Mat6 Slices MatLoops MatOps Quat Transf RingDet Spec LoopFacts Entries InstZ InstR RFacts LUFacts QRFacts ProofsRing ProofsQuat InstF FloatFacts ProofsFloat ProofsFloat2 ProofsFloatErr ProofsFloatInv ProofsFloatNorm ProofsFloatRot.
Local Open Scope R_scope.

(** ** the quadratic formula with perturbed data *)
Lemma root_size u h M D disc s e : 0 < u <= / 2048 -> 0 <= h <= / 10000 -> 0 <= M -> D <= M * M ->
  Rabs (disc - D) <= 81 / 10 * u * (M * M) + 11 * h -> 0 <= disc -> Rabs e <= u -> s = sqrt disc * (1 + e) ->
  0 <= s /\ Rabs (s * s - disc) <= 2001 / 1000 * u * disc /\ disc <= 1004 / 1000 * (M * M) + 11 * h /\ s * s <= 1006 / 1000 * (M * M) + 12 * h.
Proof.
  intros Hu Hh HM HD Ed P0 He Es. assert (M2 : 0 <= M * M) by (apply Rmult_le_pos; lra).
  assert (U1 : u * (M * M) <= / 2048 * (M * M)) by (apply Rmult_le_compat_r; lra).
  assert (Bd : disc <= 1004 / 1000 * (M * M) + 11 * h) by (apply Rabs_le_inv in Ed; lra).
  apply Rabs_le_inv in He. assert (S0 : 0 <= s) by (subst s; apply Rmult_le_pos; [apply sqrt_pos|lra]).
  assert (E2 : s * s - disc = disc * (2 * e + e * e)).
  { subst s. replace (sqrt disc * (1 + e) * (sqrt disc * (1 + e))) with (sqrt disc * sqrt disc * ((1 + e) * (1 + e))) by ring. rewrite sqrt_sqrt by exact P0. ring. }
  assert (Ee : Rabs (2 * e + e * e) <= 2001 / 1000 * u).
  { apply Rabs_le. assert (e * e <= u * u) by nra. assert (u * u <= / 2048 * u) by (apply Rmult_le_compat_r; lra). assert (0 <= e * e) by apply Rle_0_sqr. lra. }
  assert (Es2 : Rabs (s * s - disc) <= 2001 / 1000 * u * disc).
  { rewrite E2, Rabs_mult, (Rabs_pos_eq disc) by exact P0. rewrite (Rmult_comm disc). apply Rmult_le_compat_r; assumption. }
  split; [exact S0|split; [exact Es2|split; [exact Bd| ]]].
  assert (u * disc <= / 2048 * disc) by (apply Rmult_le_compat_r; lra). apply Rabs_le_inv in Es2. lra.
Qed.

Lemma eig_core u h M t d tf D disc s e sg lam : 0 < u <= / 2048 -> 0 <= h <= / 10000 -> Rabs t <= M -> D = t * t - 4 * d -> D <= M * M ->
  Rabs (tf - t) <= u * M -> Rabs (disc - D) <= 81 / 10 * u * (M * M) + 11 * h -> 0 <= disc -> Rabs e <= u -> s = sqrt disc * (1 + e) ->
  sg = 1 \/ sg = -1 -> Rabs (lam - (tf + sg * s) / 2) <= 101 / 100 * u * Rabs (tf + sg * s) + h ->
  Rabs (lam * lam - t * lam + d) <= 7 * u * (M * M) + (2 * M + 4) * h.
Proof.
  intros Hu Hh Ht ED HD Etf Ed P0 He Es Hsg El. assert (HM : 0 <= M) by (eapply Rle_trans; [apply Rabs_pos|exact Ht]).
  destruct (root_size u h M D disc s e Hu Hh HM HD Ed P0 He Es) as (S0 & Es2 & Bd & Bs).
  assert (M2 : 0 <= M * M) by (apply Rmult_le_pos; lra). clear Es He.
  assert (UM : u * M <= / 2048 * M) by (apply Rmult_le_compat_r; lra).
  assert (UM0 : 0 <= u * M) by (apply Rmult_le_pos; lra).
  assert (U1 : u * (M * M) <= / 2048 * (M * M)) by (apply Rmult_le_compat_r; lra). assert (U10 : 0 <= u * (M * M)) by (apply Rmult_le_pos; lra).
  assert (Ms : M * s <= 1003 / 1000 * (M * M) + 6 * h) by (assert (2 * (M * s) <= M * M + s * s) by (assert (0 <= (M - s) * (M - s)) by apply Rle_0_sqr; lra); lra).
  assert (Ms0 : 0 <= M * s) by (apply Rmult_le_pos; lra). assert (Ss0 : 0 <= s * s) by (apply Rmult_le_pos; lra).
  assert (Sl : s <= 1004 / 1000 * M + / 20).
  { apply Rnot_lt_le. intros L. assert ((1004 / 1000 * M + / 20) * (1004 / 1000 * M + / 20) <= s * s) by (apply Rmult_le_compat; lra). lra. }
  assert (Tf : Rabs tf <= 1001 / 1000 * M).
  { replace tf with ((tf - t) + t) by ring. eapply Rle_trans; [apply Rabs_triang|lra]. }
  assert (Asg : Rabs (sg * s) = s) by (destruct Hsg as [-> | ->]; [rewrite Rmult_1_l; apply Rabs_pos_eq, S0|replace (-1 * s) with (- s) by ring; rewrite Rabs_Ropp; apply Rabs_pos_eq, S0]).
  assert (Tm : Rabs (tf + sg * s) <= 1001 / 1000 * M + s) by (eapply Rle_trans; [apply Rabs_triang|lra]).
  set (mu := (tf + sg * s) / 2) in *. set (ep := lam - mu) in *.
  assert (Ep : Rabs ep <= 101 / 100 * u * (1001 / 1000 * M + s) + h).
  { eapply Rle_trans; [exact El| ]. apply Rplus_le_compat_r, Rmult_le_compat_l; lra. }
  assert (Am : Rabs mu <= (1001 / 1000 * M + s) / 2).
  { unfold mu, Rdiv. rewrite Rabs_mult, (Rabs_pos_eq (/ 2)) by lra. lra. }
  assert (A2 : Rabs (2 * mu - t) <= s + u * M).
  { replace (2 * mu - t) with ((tf - t) + sg * s) by (unfold mu; field). eapply Rle_trans; [apply Rabs_triang|lra]. }
  assert (I : lam * lam - t * lam + d = ep * ep + ep * (2 * mu - t) + (tf - t) * mu + (disc - D) / 4 + (t - tf) * (t + tf) / 4 + (s * s - disc) / 4).
  { assert (Q : mu * mu = tf * mu - (tf * tf - s * s) / 4) by (unfold mu; destruct Hsg as [-> | ->]; field).
    replace lam with (mu + ep) by (unfold ep; ring). replace ((mu + ep) * (mu + ep)) with (mu * mu + 2 * mu * ep + ep * ep) by ring. rewrite Q, ED. field. }
  rewrite I. clear I.
  (* the six terms *)
  assert (usq : u * (s * s) <= u * (1006 / 1000 * (M * M) + 12 * h)) by (apply Rmult_le_compat_l; lra).
  assert (ums : u * (M * s) <= u * (1003 / 1000 * (M * M) + 6 * h)) by (apply Rmult_le_compat_l; lra).
  assert (uh : 0 <= u * h <= / 2048 * h) by (split; [apply Rmult_le_pos; lra|apply Rmult_le_compat_r; lra]).
  assert (uus : u * (u * (s * s)) <= / 2048 * (u * (s * s))) by (apply Rmult_le_compat_r; [apply Rmult_le_pos; lra|lra]).
  assert (uum : u * (u * (M * M)) <= / 2048 * (u * (M * M))) by (apply Rmult_le_compat_r; lra).
  assert (uums : u * (u * (M * s)) <= / 2048 * (u * (M * s))) by (apply Rmult_le_compat_r; [apply Rmult_le_pos; lra|lra]).
  assert (hM : 0 <= h * M) by (apply Rmult_le_pos; lra).
  assert (uhM : u * (h * M) <= / 2048 * (h * M)) by (apply Rmult_le_compat_r; lra).
  assert (hs : h * s <= h * (1004 / 1000 * M + / 20)) by (apply Rmult_le_compat_l; lra).
  assert (hs0 : 0 <= h * s) by (apply Rmult_le_pos; lra).
  assert (uhs : u * (h * s) <= / 2048 * (h * s)) by (apply Rmult_le_compat_r; lra).
  assert (hh : h * h <= / 10000 * h) by (apply Rmult_le_compat_r; lra).
  set (w := 101 / 100 * u * (1001 / 1000 * M + s) + h) in *.
  assert (W0 : 0 <= w) by (eapply Rle_trans; [apply Rabs_pos|exact Ep]).
  assert (T1 : Rabs (ep * ep) <= / 100 * (u * (M * M)) + / 100 * h + / 100 * (h * M)).
  { rewrite Rabs_mult. apply Rle_trans with (w * w); [apply Rmult_le_compat; try apply Rabs_pos; exact Ep| ]. unfold w. ring_simplify. 
    replace (u ^ 2 * M ^ 2) with (u * (u * (M * M))) by ring. replace (u ^ 2 * M * s) with (u * (u * (M * s))) by ring. replace (u ^ 2 * s ^ 2) with (u * (u * (s * s))) by ring.
    replace (u * M * h) with (u * (h * M)) by ring. replace (u * s * h) with (u * (h * s)) by ring. replace (h ^ 2) with (h * h) by ring. lra. }
  assert (T2 : Rabs (ep * (2 * mu - t)) <= 21 / 10 * (u * (M * M)) + 102 / 100 * (h * M) + / 10 * h).
  { rewrite Rabs_mult. apply Rle_trans with (w * (s + u * M)); [apply Rmult_le_compat; try apply Rabs_pos; assumption| ]. unfold w. ring_simplify.
    replace (u ^ 2 * M ^ 2) with (u * (u * (M * M))) by ring. replace (u ^ 2 * M * s) with (u * (u * (M * s))) by ring.
    replace (u * M * s) with (u * (M * s)) by ring. replace (u * s ^ 2) with (u * (s * s)) by ring.
    replace (u * M * h) with (u * (h * M)) by ring. replace (s * h) with (h * s) by ring. lra. }
  assert (T3 : Rabs ((tf - t) * mu) <= 101 / 100 * (u * (M * M)) + / 100 * h).
  { rewrite Rabs_mult. apply Rle_trans with (u * M * ((1001 / 1000 * M + s) / 2)); [apply Rmult_le_compat; try apply Rabs_pos; assumption| ].
    replace (u * M * ((1001 / 1000 * M + s) / 2)) with (1001 / 2000 * (u * (M * M)) + / 2 * (u * (M * s))) by field. lra. }
  assert (T4 : Rabs ((disc - D) / 4) <= 21 / 10 * (u * (M * M)) + 11 / 4 * h).
  { unfold Rdiv. rewrite Rabs_mult, (Rabs_pos_eq (/ 4)) by lra. lra. }
  assert (T5 : Rabs ((t - tf) * (t + tf) / 4) <= 51 / 100 * (u * (M * M))).
  { unfold Rdiv. rewrite !Rabs_mult, (Rabs_pos_eq (/ 4)) by lra. rewrite (Rabs_minus_sym t tf).
    assert (Rabs (t + tf) <= 2001 / 1000 * M) by (eapply Rle_trans; [apply Rabs_triang|lra]).
    assert (Rabs (tf - t) * Rabs (t + tf) <= u * M * (2001 / 1000 * M)) by (apply Rmult_le_compat; try apply Rabs_pos; assumption). lra. }
  assert (T6 : Rabs ((s * s - disc) / 4) <= 51 / 100 * (u * (M * M)) + / 100 * h).
  { unfold Rdiv. rewrite Rabs_mult, (Rabs_pos_eq (/ 4)) by lra. assert (u * disc <= u * (1004 / 1000 * (M * M) + 11 * h)) by (apply Rmult_le_compat_l; lra). lra. }
  set (t1 := ep * ep) in *. set (t2 := ep * (2 * mu - t)) in *. set (t3 := (tf - t) * mu) in *. set (t4 := (disc - D) / 4) in *. set (t5 := (t - tf) * (t + tf) / 4) in *. set (t6 := (s * s - disc) / 4) in *.
  clearbody t1 t2 t3 t4 t5 t6. clear - T1 T2 T3 T4 T5 T6 hM U10 Hh. apply Rabs_le_inv in T1, T2, T3, T4, T5, T6. apply Rabs_le. lra.
Qed.

Section F.
Context {prec emax : Z} {Hp : Prec_gt_0 prec} {He : Prec_lt_emax prec emax} {O : FOracle (binary_float prec emax)}.
Notation fl := (binary_float prec emax).
Notation uro := (uro (prec := prec)).
Notation eta := (eta (prec := prec) (emax := emax)).
Hypothesis Hp11 : (11 <= prec)%Z.
Hypothesis He4 : (4 * prec <= emax)%Z.
#[local] Existing Instance bdu_Num.

Ltac ufin_go := lazymatch goal with
  | |- ufin (add _ _) _ => eapply ufin_add; [exact Hp11|exact He4|ufin_go..]
  | |- ufin (sub _ _) _ => eapply ufin_sub; [exact Hp11|exact He4|ufin_go..]
  | |- ufin (mul _ _) _ => eapply ufin_mul; [exact Hp11|exact He4|ufin_go..]
  | |- _ => eassumption
  end.
Ltac uerr_go := lazymatch goal with
  | |- uerr (add _ _) _ _ => eapply uerr_add; uerr_go
  | |- uerr (sub _ _) _ _ => eapply uerr_sub; uerr_go
  | |- uerr (mul _ _) _ _ => eapply uerr_mul; uerr_go
  | |- _ => eapply uerr_leaf
  end.

Lemma small_int z : (Z.abs z <= 4)%Z -> is_finite (fofZ z : fl) = true /\ B2R (fofZ z : fl) = IZR z.
Proof.
  intros Hz. assert (4 <= 2 ^ prec)%Z by (change 4%Z with (2 ^ 2)%Z; apply Z.pow_le_mono_r; lia). pose proof (fofZ_int (prec := prec) (emax := emax) z ltac:(lia)) as [A B]. split; assumption.
Qed.

(** halving *)
Lemma half_err (x : fl) B : is_finite x = true -> Rabs (B2R x) <= B -> 2 * (B + 1) < bpow radix2 emax ->
  is_finite (Bdiv mode_NE x (fofZ 2)) = true /\ Rabs (B2R (Bdiv mode_NE x (fofZ 2)) - B2R x / 2) <= uro * Rabs (B2R x / 2) + eta /\
  B2R (Bdiv mode_NE x (fofZ 2)) = round radix2 (FLT_exp (3 - emax - prec) prec) ZnearestE (B2R x / 2).
Proof.
  intros F Bx L. destruct (small_int 2 ltac:(lia)) as [F2 V2]. pose proof (uro_small Hp11) as U. pose proof (uro_pos (prec := prec)) as P.
  assert (N : B2R (fofZ 2 : fl) <> 0) by (rewrite V2; lra). pose proof (Bdiv_correct prec emax Hp He mode_NE x (fofZ 2) N) as C. rewrite V2 in C.
  cbn [round_mode] in C. rewrite fe_eq in C. pose proof (rnd_bound (prec := prec) (emax := emax) Hp11 He4 (B2R x / 2)) as Rb.
  assert (Ax : Rabs (B2R x / 2) = Rabs (B2R x) / 2) by (unfold Rdiv; rewrite Rabs_mult, (Rabs_pos_eq (/ 2)) by lra; reflexivity).
  assert (B0 : 0 <= B) by (eapply Rle_trans; [apply Rabs_pos|exact Bx]).
  rewrite Rlt_bool_true in C.
  - destruct C as (C1 & C2 & _). rewrite F in C2. split; [exact C2| ]. rewrite C1. split; [ |reflexivity].
    destruct (error_N_FLT radix2 (3 - emax - prec) prec Hp (fun z => negb (Z.even z)) (B2R x / 2)) as (e & h & Le & Lh & _ & E).
    replace (- prec + 1)%Z with (1 - prec)%Z in Le by ring. fold uro in Le. fold eta in Lh. rewrite E.
    replace (B2R x / 2 * (1 + e) + h - B2R x / 2) with (e * (B2R x / 2) + h) by ring.
    eapply Rle_trans; [apply Rabs_triang| ]. rewrite Rabs_mult. apply Rplus_le_compat; [apply Rmult_le_compat_r; [apply Rabs_pos|exact Le]|exact Lh].
  - eapply Rle_lt_trans; [exact Rb| ]. rewrite Ax. apply Rle_lt_trans with (2 * (B + 1)); [ |exact L].
    apply Rmult_le_compat; try lra. pose proof (Rabs_pos (B2R x)). lra.
Qed.

Lemma c93_eigenvalues : forall (A : M22 fl) B, 1 <= B -> 200 * (B * B) <= bpow radix2 emax ->
  (forall i j, (i < 2)%nat -> (j < 2)%nat -> is_finite (mfun A i j) = true /\ Rabs (B2R (mfun A i j)) <= B) ->
  let X := fun i j => B2R (mfun A i j) in
  let M := Rabs (X 0 0)%nat + Rabs (X 0 1)%nat + Rabs (X 1 0)%nat + Rabs (X 1 1)%nat in
  let t := X 0%nat 0%nat + X 1%nat 1%nat in let d := X 0%nat 0%nat * X 1%nat 1%nat - X 0%nat 1%nat * X 1%nat 0%nat in
  let D := t * t - 4 * d in let r := 81 / 10 * uro * (M * M) + 11 * eta in
  match m22_real_eigenvals A with
  | None => D < r
  | Some v => - r <= D /\ is_finite (vfun v 0) = true /\ is_finite (vfun v 1) = true /\
      let l1 := B2R (vfun v 0) in let l2 := B2R (vfun v 1) in
      l2 <= l1 /\
      Rabs (l1 * l1 - t * l1 + d) <= 7 * uro * (M * M) + (2 * M + 4) * eta /\ Rabs (l2 * l2 - t * l2 + d) <= 7 * uro * (M * M) + (2 * M + 4) * eta /\
      Rabs (l1 + l2 - t) <= 51 / 10 * uro * M + 8 * uro * sqrt eta + 2 * eta
  end.
Proof.
  intros A B B1 BE HA X M t d D r. pose proof (uro_small Hp11) as U. pose proof (uro_pos (prec := prec)) as P. pose proof (eta_tiny Hp11 He4) as T. assert (E0 : 0 <= eta) by apply eta_pos.
  assert (BB : B <= B * B) by (rewrite <- (Rmult_1_r B) at 1; apply Rmult_le_compat_l; lra).
  destruct A as ((a&b&[])&(c&dd&[])&[]). unfold X in *. clear X.
  destruct (HA 0%nat 0%nat ltac:(lia) ltac:(lia)) as [Fa Ba]. destruct (HA 0%nat 1%nat ltac:(lia) ltac:(lia)) as [Fb Bb]. destruct (HA 1%nat 0%nat ltac:(lia) ltac:(lia)) as [Fc Bc]. destruct (HA 1%nat 1%nat ltac:(lia) ltac:(lia)) as [Fd Bd]. clear HA.
  lazy [vfun mfun List.nth List.map alist fst snd] in Fa, Fb, Fc, Fd, Ba, Bb, Bc, Bd.
  assert (Em : M = Rabs (B2R a) + Rabs (B2R b) + Rabs (B2R c) + Rabs (B2R dd)) by reflexivity.
  assert (Et : t = B2R a + B2R dd) by reflexivity. assert (Edt : d = B2R a * B2R dd - B2R b * B2R c) by reflexivity. clearbody M t d.
  destruct (small_int 4 ltac:(lia)) as [F4 V4].
  set (tau := add a dd). set (det := sub (mul a dd) (mul c b)). set (disc := sub (mul tau tau) (mul (fofZ 4) det)).
  assert (Fdisc : is_finite disc = true).
  { assert (La : ufin a (B, 0%nat)) by (apply ufin_leaf; assumption). assert (Lb : ufin b (B, 0%nat)) by (apply ufin_leaf; assumption).
    assert (Lc : ufin c (B, 0%nat)) by (apply ufin_leaf; assumption). assert (Ld : ufin dd (B, 0%nat)) by (apply ufin_leaf; assumption).
    assert (L4 : ufin (fofZ 4 : fl) (4, 0%nat)) by (apply ufin_leaf; [exact F4|rewrite V4, Rabs_pos_eq; lra|lra]).
    unfold disc, tau, det. eapply (ufin_done Hp11 _ _ _ _ (32 * (B * B)) 100); [ufin_go|reflexivity| |cbn; lra|lra|lra].
    clear - B1 BB. cbn. lra. }
  assert (MM : 0 <= M) by (rewrite Em; repeat apply Rplus_le_le_0_compat; apply Rabs_pos).
  assert (Edisc : Rabs (B2R disc - D) <= r).
  { assert (G : Rabs (B2R disc - D) <= ((1 + uro) ^ 4 - 1) * (2 * (M * M)) + (1 + uro) ^ 4 * (10 * eta)).
    { unfold disc, tau, det in Fdisc |- *. eapply uerr_done; [uerr_go|reflexivity|cbn; lia| | | |exact Fdisc].
      - unfold D. rewrite Et, Edt, V4. lazy [add sub mul R_Num]. ring.
      - rewrite V4, (Rabs_pos_eq 4) by lra. rewrite Em. pose proof (Rabs_pos (B2R a)). pose proof (Rabs_pos (B2R b)). pose proof (Rabs_pos (B2R c)). pose proof (Rabs_pos (B2R dd)).
        set (xa := Rabs (B2R a)) in *. set (xb := Rabs (B2R b)) in *. set (xc := Rabs (B2R c)) in *. set (xd := Rabs (B2R dd)) in *. clearbody xa xb xc xd. lazy [add sub mul bdu_Num].
        clear - H H0 H1 H2. assert (0 <= (xa - xd) * (xa - xd)) by apply Rle_0_sqr. assert (0 <= (xb - xc) * (xb - xc)) by apply Rle_0_sqr.
        assert (0 <= (xa + xd) * (xb + xc)) by (apply Rmult_le_pos; lra). nra.
      - rewrite V4, (Rabs_pos_eq 4) by lra. lra. }
    eapply Rle_trans; [exact G| ]. unfold r.
    pose proof (pow_lin Hp11 4 (401 / 100) ltac:(cbn; lra) ltac:(lra)) as P4. set (pw := (1 + uro) ^ 4) in *. clearbody pw.
    assert (M2 : 0 <= M * M) by (apply Rmult_le_pos; lra).
    assert ((pw - 1) * (2 * (M * M)) <= 401 / 100 * uro * (2 * (M * M))) by (apply Rmult_le_compat_r; lra). assert (0 <= uro * (M * M)) by (apply Rmult_le_pos; lra).
    assert (pw * (10 * eta) <= 11 / 10 * (10 * eta)) by (apply Rmult_le_compat_r; lra). lra. }
  assert (HD : D <= M * M).
  { unfold D. rewrite Et, Edt, Em. set (ra := B2R a). set (rb := B2R b). set (rc := B2R c). set (rd := B2R dd).
    pose proof (Rabs_pos ra). pose proof (Rabs_pos rb). pose proof (Rabs_pos rc). pose proof (Rabs_pos rd).
    assert (Q1 : Rabs ra * Rabs ra = ra * ra) by (rewrite <- Rabs_mult; apply Rabs_pos_eq, Rle_0_sqr). assert (Q2 : Rabs rd * Rabs rd = rd * rd) by (rewrite <- Rabs_mult; apply Rabs_pos_eq, Rle_0_sqr).
    assert (Q3 : - (Rabs ra * Rabs rd) <= ra * rd) by (rewrite <- Rabs_mult; pose proof (Rabs_le_inv _ _ (Rle_refl (Rabs (ra * rd)))); lra).
    assert (Q4 : rb * rc <= Rabs rb * Rabs rc) by (rewrite <- Rabs_mult; apply Rle_abs).
    set (xa := Rabs ra) in *. set (xb := Rabs rb) in *. set (xc := Rabs rc) in *. set (xd := Rabs rd) in *. clearbody xa xb xc xd ra rb rc rd.
    assert (0 <= (xb - xc) * (xb - xc)) by apply Rle_0_sqr. assert (0 <= (xa + xd) * (xb + xc)) by (apply Rmult_le_pos; lra). lra. }
  match goal with |- match ?e with _ => _ end => assert (Me : e =
    (if Rlt_bool (B2R disc) 0 then None else Some [| Bdiv mode_NE (Bplus mode_NE tau (Bsqrt mode_NE disc)) (fofZ 2); Bdiv mode_NE (Bminus mode_NE tau (Bsqrt mode_NE disc)) (fofZ 2) |])) end.
  { change 0 with (B2R (B754_zero false : fl)). rewrite <- (Bltb_correct _ _ disc (B754_zero false) Fdisc eq_refl). reflexivity. }
  rewrite Me. clear Me.
  destruct (Rlt_bool_spec (B2R disc) 0) as [L|L].
  { apply Rabs_le_inv in Edisc. lra. }
  assert (Ft : is_finite tau = true).
  { unfold disc in Fdisc. lazy [sub F_Num] in Fdisc. rewrite Bminus_plus in Fdisc. destruct (plus_finite _ _ Fdisc) as (Q & _). destruct (mult_finite _ _ Q) as (Q1 & _). exact Q1. }
  assert (Etau : Rabs (B2R tau - t) <= uro * M).
  { rewrite Et. eapply Rle_trans; [exact (plus_rel a dd Ft)| ]. apply Rmult_le_compat_l; [lra| ]. rewrite Em. pose proof (Rabs_triang (B2R a) (B2R dd)). pose proof (Rabs_pos (B2R b)). pose proof (Rabs_pos (B2R c)). lra. }
  assert (Tm : Rabs t <= M).
  { rewrite Et, Em. pose proof (Rabs_triang (B2R a) (B2R dd)). pose proof (Rabs_pos (B2R b)). pose proof (Rabs_pos (B2R c)). lra. }
  set (s := Bsqrt mode_NE disc). destruct (sqrt_round disc) as (e & Le & Es). fold s in Es.
  assert (Fs : is_finite s = true).
  { unfold s. destruct (Bsqrt_correct prec emax Hp He mode_NE disc) as (_ & -> & _). destruct disc as [ | | |sg m x Hx]; try discriminate; [reflexivity| ].
    destruct sg; [ |reflexivity]. exfalso. cbn in L. assert (F2R (Defs.Float radix2 (Z.neg m) x) < 0) by (apply F2R_lt_0; reflexivity). lra. }
  destruct (root_size uro eta M D (B2R disc) (B2R s) e ltac:(lra) ltac:(lra) MM HD Edisc L Le Es) as (S0 & _ & _ & Ss).
  assert (MB : M <= 4 * B) by (rewrite Em; lra).
  assert (Sb : B2R s <= 5 * B).
  { assert (M * M <= 4 * B * (4 * B)) by (apply Rmult_le_compat; lra). apply Rnot_lt_le. intros L'. assert (5 * B * (5 * B) <= B2R s * B2R s) by (apply Rmult_le_compat; lra). assert (eta <= / 10000) by lra. lra. }
  assert (Tb : Rabs (B2R tau) <= 5 * B).
  { replace (B2R tau) with ((B2R tau - t) + t) by ring. eapply Rle_trans; [apply Rabs_triang| ]. assert (uro * M <= / 2048 * M) by (apply Rmult_le_compat_r; lra). lra. }
  assert (Half : forall (w : fl) sg, (sg = 1 \/ sg = -1) -> (is_finite w = true -> Rabs (B2R w - (B2R tau + sg * B2R s)) <= uro * Rabs (B2R tau + sg * B2R s)) -> is_finite w = true ->
    is_finite (Bdiv mode_NE w (fofZ 2)) = true /\ Rabs (B2R (Bdiv mode_NE w (fofZ 2)) - (B2R tau + sg * B2R s) / 2) <= 101 / 100 * uro * Rabs (B2R tau + sg * B2R s) + eta /\
    B2R (Bdiv mode_NE w (fofZ 2)) = round radix2 (FLT_exp (3 - emax - prec) prec) ZnearestE (B2R w / 2)).
  { intros w sg Hsg Hw Fw. specialize (Hw Fw). set (z := B2R tau + sg * B2R s) in *.
    assert (Zb : Rabs z <= 10 * B).
    { unfold z. eapply Rle_trans; [apply Rabs_triang| ]. assert (Rabs (sg * B2R s) = B2R s) by (destruct Hsg as [-> | ->]; [rewrite Rmult_1_l; apply Rabs_pos_eq, S0|replace (-1 * B2R s) with (- B2R s) by ring; rewrite Rabs_Ropp; apply Rabs_pos_eq, S0]). lra. }
    assert (Uz : uro * Rabs z <= / 2048 * Rabs z) by (apply Rmult_le_compat_r; [apply Rabs_pos|lra]).
    assert (Wb : Rabs (B2R w) <= 2049 / 2048 * Rabs z) by (replace (B2R w) with ((B2R w - z) + z) by ring; eapply Rle_trans; [apply Rabs_triang|lra]).
    pose proof (Rabs_pos z) as Z0.
    destruct (half_err w (11 * B) Fw ltac:(lra) ltac:(lra)) as (G1 & G2 & G3). split; [exact G1|split; [ |exact G3]].
    assert (A2 : Rabs (B2R w / 2) = Rabs (B2R w) / 2) by (unfold Rdiv; rewrite Rabs_mult, (Rabs_pos_eq (/ 2)) by lra; reflexivity). rewrite A2 in G2.
    assert (Uw : uro * (Rabs (B2R w) / 2) <= uro * (2049 / 2048 * Rabs z / 2)) by (apply Rmult_le_compat_l; lra).
    replace (B2R (Bdiv mode_NE w (fofZ 2)) - z / 2) with ((B2R (Bdiv mode_NE w (fofZ 2)) - B2R w / 2) + (B2R w - z) / 2) by field.
    eapply Rle_trans; [apply Rabs_triang| ]. assert (Rabs ((B2R w - z) / 2) <= uro * Rabs z / 2) by (unfold Rdiv; rewrite Rabs_mult, (Rabs_pos_eq (/ 2)) by lra; lra).
    assert (0 <= uro * Rabs z) by (apply Rmult_le_pos; lra). lra. }
  assert (Ls : ufin s (5 * B, 0%nat)) by (apply ufin_leaf; [exact Fs|rewrite Rabs_pos_eq; assumption|lra]).
  assert (Lt : ufin tau (5 * B, 0%nat)) by (apply ufin_leaf; [exact Ft|exact Tb|lra]).
  set (w1 := Bplus mode_NE tau s). set (w2 := Bminus mode_NE tau s).
  assert (Fw1 : is_finite w1 = true).
  { change w1 with (add tau s). eapply (ufin_done Hp11 _ _ _ _ (11 * B) 100); [ufin_go|reflexivity|lra|cbn; lra|lra|lra]. }
  assert (Fw2 : is_finite w2 = true).
  { change w2 with (sub tau s). eapply (ufin_done Hp11 _ _ _ _ (11 * B) 100); [ufin_go|reflexivity|lra|cbn; lra|lra|lra]. }
  assert (V1 : B2R w1 = round radix2 (FLT_exp (3 - emax - prec) prec) ZnearestE (B2R tau + B2R s)) by (destruct (plus_finite _ _ Fw1) as (_ & _ & Q); exact Q).
  assert (V2 : B2R w2 = round radix2 (FLT_exp (3 - emax - prec) prec) ZnearestE (B2R tau + - B2R s)).
  { unfold w2 in Fw2 |- *. rewrite Bminus_plus in Fw2 |- *. destruct (plus_finite _ _ Fw2) as (_ & _ & Q). rewrite Q, B2R_Bopp. reflexivity. }
  destruct (Half w1 1 ltac:(left; reflexivity)) as (G1 & G1' & G1''); [intros F; rewrite Rmult_1_l; exact (plus_rel tau s F)|exact Fw1| ].
  destruct (Half w2 (-1) ltac:(right; reflexivity)) as (G2 & G2' & G2'').
  { intros F. replace (-1 * B2R s) with (- B2R s) by ring. unfold w2 in F |- *. rewrite Bminus_plus in F |- *. pose proof (plus_rel tau (Bopp s) F) as Q. rewrite B2R_Bopp in Q. exact Q. }
  { exact Fw2. }
  split; [apply Rabs_le_inv in Edisc; lra|split; [exact G1|split; [exact G2| ]]].
  cbv zeta. match goal with |- context [vfun ?v 0] => change (vfun v 0) with (Bdiv mode_NE w1 (fofZ 2)); change (vfun v 1) with (Bdiv mode_NE w2 (fofZ 2)) end.
  set (l1 := B2R (Bdiv mode_NE w1 (fofZ 2))) in *. set (l2 := B2R (Bdiv mode_NE w2 (fofZ 2))) in *.
  split; [ |split; [ |split]].
  - rewrite G1'', G2''. apply round_le; [apply FLT_exp_valid; exact Hp|apply valid_rnd_N| ]. apply Rmult_le_compat_r; [lra| ]. rewrite V1, V2.
    apply round_le; [apply FLT_exp_valid; exact Hp|apply valid_rnd_N|lra].
  - apply (eig_core uro eta M t d (B2R tau) D (B2R disc) (B2R s) e 1 l1); try assumption; try lra; reflexivity.
  - apply (eig_core uro eta M t d (B2R tau) D (B2R disc) (B2R s) e (-1) l2); try assumption; try lra; reflexivity.
  - assert (Sq : B2R s <= 1004 / 1000 * M + 36 / 10 * sqrt eta).
    { pose proof (sqrt_pos eta) as Q0. pose proof (sqrt_sqrt eta E0) as Q1. set (q := sqrt eta) in *. apply Rnot_lt_le. intros L'.
      assert ((1004 / 1000 * M + 36 / 10 * q) * (1004 / 1000 * M + 36 / 10 * q) <= B2R s * B2R s) by (apply Rmult_le_compat; lra).
      assert (0 <= M * q) by (apply Rmult_le_pos; lra). assert (0 <= M * M) by (apply Rmult_le_pos; lra).
      destruct (Req_dec eta 0) as [Z|Z]; [pose proof (FloatFacts.eta_pos (prec := prec) (emax := emax)); lra| ]. assert (0 < eta) by (apply FloatFacts.eta_pos). lra. }
    set (z1 := B2R tau + 1 * B2R s) in *. set (z2 := B2R tau + -1 * B2R s) in *.
    assert (Tt : Rabs (B2R tau) <= 1001 / 1000 * M).
    { replace (B2R tau) with ((B2R tau - t) + t) by ring. eapply Rle_trans; [apply Rabs_triang| ]. assert (uro * M <= / 2048 * M) by (apply Rmult_le_compat_r; lra). lra. }
    assert (Hz : Rabs z1 + Rabs z2 <= 2 * (1004 / 1000 * M + 36 / 10 * sqrt eta)).
    { unfold z1, z2. pose proof (sqrt_pos eta). apply Rabs_le_inv in Tt. unfold Rabs. destruct (Rcase_abs (B2R tau + 1 * B2R s)); destruct (Rcase_abs (B2R tau + -1 * B2R s)); lra. }
    pose proof (sqrt_pos eta) as Q0. assert (0 <= uro * sqrt eta) by (apply Rmult_le_pos; lra). assert (0 <= uro * M) by (apply Rmult_le_pos; lra).
    assert (Uz : uro * (Rabs z1 + Rabs z2) <= uro * (2 * (1004 / 1000 * M + 36 / 10 * sqrt eta))) by (apply Rmult_le_compat_l; lra).
    assert (Zz : z1 / 2 + z2 / 2 = B2R tau) by (unfold z1, z2; field).
    replace (l1 + l2 - t) with ((l1 - z1 / 2) + (l2 - z2 / 2) + (B2R tau - t)) by (rewrite <- Zz; ring).
    eapply Rle_trans; [apply Rabs_triang| ]. eapply Rle_trans; [apply Rplus_le_compat_r, Rabs_triang| ]. lra.
Qed.
End F.

#[local] Instance prec53 : Prec_gt_0 53 := eq_refl.
#[local] Instance emax1024 : Prec_lt_emax 53 1024 := eq_refl.
#[local] Notation f64 := (binary_float 53 1024).

Lemma B2R_of_SF (x : f64) s m e : B2SF x = SpecFloat.S754_finite s m e -> B2R x = IZR (if s then Z.neg m else Z.pos m) * bpow radix2 e.
Proof. intros E. destruct x as [b|b| |b m' e' B]; try discriminate. cbn [B2SF] in E. injection E as -> -> ->. destruct s; reflexivity. Qed.

(** a diagonal matrix with the entries 1 + 2^-52 and 1 is said to have no real eigenvalue *)
Lemma c93_diagonal_refuted : forall O : FOracle f64, exists x y : f64, is_finite x = true /\ is_finite y = true /\ 1 <= B2R y < B2R x /\ B2R x <= 2 /\
  m22_real_eigenvals [| [| x; zero |]; [| zero; y |] |] = None.
Proof.
  intros O. set (x := Bplus mode_NE (fofZ 1) (p2 (-52)) : f64). exists x, (fofZ 1).
  assert (X : B2SF x = SpecFloat.S754_finite false 4503599627370497 (-52)) by (vm_compute; reflexivity).
  assert (Y : B2SF (fofZ 1 : f64) = SpecFloat.S754_finite false 4503599627370496 (-52)) by (vm_compute; reflexivity).
  split; [vm_compute; reflexivity|split; [vm_compute; reflexivity|split; [ |split]]].
  - rewrite (B2R_of_SF _ _ _ _ X), (B2R_of_SF _ _ _ _ Y). cbn. lra.
  - rewrite (B2R_of_SF _ _ _ _ X). cbn. lra.
  - vm_compute. reflexivity.
Qed.

(** a matrix without any real eigenvalue is said to have two: the polynomial has no real zero *)
Lemma c93_complex_refuted : forall O : FOracle f64, exists (A : M22 f64) (v : V2 f64), m22_real_eigenvals A = Some v /\
  (forall i j, (i < 2)%nat -> (j < 2)%nat -> is_finite (mfun A i j) = true) /\
  (forall l, 0 < l * l - (B2R (mfun A 0 0) + B2R (mfun A 1 1)) * l + (B2R (mfun A 0 0) * B2R (mfun A 1 1) - B2R (mfun A 0 1) * B2R (mfun A 1 0))).
Proof.
  intros O. set (A := [| [| fofZ 1; p2 (-30) |]; [| Bopp (p2 (-30)); fofZ 1 |] |] : M22 f64).
  destruct (m22_real_eigenvals A) as [v| ] eqn:E; [ |exfalso; assert (X : match m22_real_eigenvals A with None => true | Some _ => false end = false) by (vm_compute; reflexivity); rewrite E in X; discriminate].
  exists A, v. split; [exact E|split].
  - intros i j Hi Hj. destruct i as [ |[ |i]]; [ | |lia]; (destruct j as [ |[ |j]]; [vm_compute; reflexivity..|lia]).
  - intros l. assert (X00 : B2SF (mfun A 0 0) = SpecFloat.S754_finite false 4503599627370496 (-52)) by (vm_compute; reflexivity).
    assert (X01 : B2SF (mfun A 0 1) = SpecFloat.S754_finite false 4503599627370496 (-82)) by (vm_compute; reflexivity).
    assert (X10 : B2SF (mfun A 1 0) = SpecFloat.S754_finite true 4503599627370496 (-82)) by (vm_compute; reflexivity).
    assert (X11 : B2SF (mfun A 1 1) = SpecFloat.S754_finite false 4503599627370496 (-52)) by (vm_compute; reflexivity).
    rewrite (B2R_of_SF _ _ _ _ X00), (B2R_of_SF _ _ _ _ X01), (B2R_of_SF _ _ _ _ X10), (B2R_of_SF _ _ _ _ X11). cbn.
    assert (0 <= (l - 1) * (l - 1)) by apply Rle_0_sqr. lra.
Qed.

(** finite entries, NaN eigenvalues *)
Lemma c93_nan_refuted : forall O : FOracle f64, exists x : f64, is_finite x = true /\
  m22_real_eigenvals [| [| x; zero |]; [| zero; x |] |] = Some [| B754_nan; B754_nan |].
Proof.
  intros O. exists (p2 600). split; [vm_compute; reflexivity| ]. set (A := [| [| p2 600; zero |]; [| zero; p2 600 |] |] : M22 f64).
  destruct (m22_real_eigenvals A) as [(a & b & [])| ] eqn:E.
  - assert (X : match m22_real_eigenvals A with None => nil | Some v => B2SF (vfun v 0) :: B2SF (vfun v 1) :: nil end = SpecFloat.S754_nan :: SpecFloat.S754_nan :: nil) by (vm_compute; reflexivity).
    rewrite E in X. cbn [vfun alist List.nth fst snd] in X. injection X as Xa Xb. rewrite (B2SF_inj 53 1024 a (B754_nan : f64) Xa), (B2SF_inj 53 1024 b (B754_nan : f64) Xb). reflexivity.
  - exfalso. assert (X : match m22_real_eigenvals A with None => true | Some _ => false end = false) by (vm_compute; reflexivity). rewrite E in X. discriminate.
Qed.

(** an invertible diagonal matrix gets the eigenvalue 0: small eigenvalues have no relative accuracy *)
Lemma c93_small_refuted : forall O : FOracle f64, exists x y l : f64, B2R x = 1 /\ B2R y = bpow radix2 (-60) /\ B2R l = 1 /\
  m22_real_eigenvals [| [| x; zero |]; [| zero; y |] |] = Some [| l; zero |].
Proof.
  intros O. set (A := [| [| fofZ 1; zero |]; [| zero; p2 (-60) |] |] : M22 f64).
  assert (X : match m22_real_eigenvals A with None => nil | Some v => B2SF (vfun v 0) :: B2SF (vfun v 1) :: nil end = SpecFloat.S754_finite false 4503599627370496 (-52) :: SpecFloat.S754_zero false :: nil) by (vm_compute; reflexivity).
  destruct (m22_real_eigenvals A) as [(a & b & [])| ] eqn:E; [ |discriminate]. cbn [vfun alist List.nth fst snd] in X. injection X as Xa Xb. change (B2SF a = SpecFloat.S754_finite false 4503599627370496 (-52)) in Xa. change (B2SF b = SpecFloat.S754_zero false) in Xb.
  exists (fofZ 1), (p2 (-60)), a. assert (Y : B2SF (p2 (-60) : f64) = SpecFloat.S754_finite false 4503599627370496 (-112)) by (vm_compute; reflexivity).
  assert (Z1 : B2SF (fofZ 1 : f64) = SpecFloat.S754_finite false 4503599627370496 (-52)) by (vm_compute; reflexivity).
  split; [rewrite (B2R_of_SF _ _ _ _ Z1); cbn; lra|split; [rewrite (B2R_of_SF _ _ _ _ Y); cbn; lra|split; [rewrite (B2R_of_SF _ _ _ _ Xa); cbn; lra| ]]].
  change (m22_real_eigenvals A = Some [| a; zero |]). rewrite E, (B2SF_inj 53 1024 b (B754_zero false : f64) Xb). reflexivity.
Qed.

(** 2, 1 / 1, 3 *)
Example C93_case : forall O : FOracle f64, exists v, m22_real_eigenvals [| [| fofZ 2; fofZ 1 |]; [| fofZ 1; fofZ 3 |] |] = Some v /\
  Rabs (B2R (vfun v 0) * B2R (vfun v 0) - 5 * B2R (vfun v 0) + 5) <= / 1000000000000.
Proof.
  intros O. set (A := [| [| fofZ 2; fofZ 1 |]; [| fofZ 1; fofZ 3 |] |] : M22 f64).
  assert (V : forall z, (-4 <= z <= 4)%Z -> is_finite (fofZ z : f64) = true /\ B2R (fofZ z : f64) = IZR z) by (intros z Hz; apply (fofZ_int (prec := 53) (emax := 1024)); cbn; lia).
  assert (E00 : mfun A 0 0 = fofZ 2) by reflexivity. assert (E01 : mfun A 0 1 = fofZ 1) by reflexivity. assert (E10 : mfun A 1 0 = fofZ 1) by reflexivity. assert (E11 : mfun A 1 1 = fofZ 3) by reflexivity. clearbody A.
  assert (G : forall z, (0 <= z <= 4)%Z -> is_finite (fofZ z : f64) = true /\ Rabs (B2R (fofZ z : f64)) <= 4).
  { intros z Hz. destruct (V z ltac:(lia)) as [F W]. split; [exact F| ]. rewrite W. rewrite Rabs_pos_eq by (apply (IZR_le 0); lia). apply (IZR_le z 4). lia. }
  pose proof (c93_eigenvalues (prec := 53) (emax := 1024) ltac:(lia) ltac:(lia) A 4 ltac:(lra) ltac:(cbn; lra)) as H.
  specialize (H ltac:(intros i j Hi Hj; destruct i as [ |[ |i]]; [ | |lia]; (destruct j as [ |[ |j]]; [ | |lia]); rewrite ?E00, ?E01, ?E10, ?E11; apply G; lia)).
  cbv beta zeta in H. rewrite E00, E01, E10, E11 in H.
  rewrite (proj2 (V 2%Z ltac:(lia))), (proj2 (V 1%Z ltac:(lia))), (proj2 (V 3%Z ltac:(lia))) in H. rewrite !Rabs_pos_eq in H by lra.
  assert (U : uro (prec := 53) <= / 1000000000000000) by (unfold FloatFacts.uro; cbn; lra).
  assert (E : eta (prec := 53) (emax := 1024) <= / 1000000000000000000).
  { unfold FloatFacts.eta, FloatFacts.uro. pose proof (bpow_le radix2 (3 - 1024 - 53) (-80) ltac:(lia)) as L. set (b := bpow radix2 (3 - 1024 - 53)) in *. clearbody b. cbn in L |- *. lra. }
  destruct (m22_real_eigenvals A) as [v| ].
  - exists v. split; [reflexivity| ]. destruct H as (_ & _ & _ & _ & H & _). replace (2 + 3) with 5 in H by ring. replace (2 * 3 - 1 * 1) with 5 in H by ring. lra.
  - exfalso. lra.
Qed.
