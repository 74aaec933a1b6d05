(** * ProofsInt: vectors, matrices and quaternions of machine integers (C76)

    [sg] and [w] range over all integer types: i8 .. i128, u8 .. u128, isize, usize.
    The functions whose bound is [T: Num + Copy] (and [Signed]) accept them. *)

From Coq Require Import ZArith Lia Bool List Arith Ring.
From Verif Require Import Base Scalar Vec Mat2 Mat3 Mat4 Mat5 Mat6 MatLoops MatOps Quat DualQuat RingDet Spec
  Entries InstZ InstI ProofsRing ProofsQuat ProofsRigid FloatFacts.
Open Scope Z_scope.

(** all products and all partial sums fit *)
Definition dot_fits (sg : bool) (w : Z) (n : nat) (p : nat -> Z) : Prop :=
  forall m, (m < n)%nat -> fits sg w (p m) /\ fits sg w (sumn (S m) p).

Section Debug.
Variables (sg : bool) (w : Z).
Notation T := (chk sg w).
Notation fits := (fits sg w).
Notation dot_fits := (dot_fits sg w).

Lemma dotl_chk n (f g : nat -> T) (F G : nat -> Z) z : (0 < n)%nat ->
  (forall k, (k < n)%nat -> f k = Some (F k) /\ g k = Some (G k)) ->
  dotl n f g = Some z <-> dot_fits n (fun k => F k * G k) /\ z = sumn n (fun k => F k * G k).
Proof.
  intros P. revert z. induction n as [ |n IH]; [lia| ]. intros z H. destruct n as [ |n].
  - destruct (H 0%nat ltac:(lia)) as [Ef Eg]. cbn [dotl]. rewrite Ef, Eg. cbn [mul chk_Num c2].
    rewrite ck_some. unfold dot_fits. cbn [sumn add zero Z_Num]. split.
    + intros [Fi ->]. split; [ |lia]. intros m Hm. replace m with 0%nat by lia. cbn [sumn add zero Z_Num].
      rewrite Z.add_0_l. auto.
    + intros [D ->]. destruct (D 0%nat ltac:(lia)) as [D1 D2]. split; [exact D1|lia].
  - rewrite dotl_S by lia. cbn [add chk_Num]. rewrite c2_some.
    assert (H' : forall k, (k < S n)%nat -> f k = Some (F k) /\ g k = Some (G k)) by (intros; apply H; lia).
    destruct (H (S n) ltac:(lia)) as [Ef Eg]. split.
    + intros (a & b & Ea & Eb & Fi & ->). apply IH in Ea; [ |lia|exact H']. destruct Ea as [D ->].
      rewrite Ef, Eg in Eb. cbn [mul chk_Num c2] in Eb. apply ck_some in Eb as [Fb ->]. split; [ |reflexivity].
      intros m Hm. destruct (Nat.eq_dec m (S n)) as [->|N]; [split; [exact Fb|exact Fi]|apply D; lia].
    + intros [D ->]. exists (sumn (S n) (fun k => F k * G k)), (F (S n) * G (S n)).
      split; [ |split; [ |split]].
      * apply IH; [lia|exact H'| ]. split; [intros m Hm; apply D; lia|reflexivity].
      * rewrite Ef, Eg. cbn [mul chk_Num c2]. apply ck_some. split; [apply D; lia|reflexivity].
      * apply (D (S n)). lia.
      * reflexivity.
Qed.

Lemma dimn_pos d : (0 < dimn d)%nat.
Proof. destruct d; cbn; lia. Qed.
Lemma ord_lt d i k : (k < dimn d)%nat -> (ord d i k < dimn d)%nat.
Proof.
  destruct d; try (intros H; exact H). intros H. unfold ord. destruct (Nat.eqb i 2); [ |exact H].
  apply (Nat.mod_upper_bound (k + 1) 4). discriminate.
Qed.

(** *** addition, subtraction, scaling, division: exactly when every entry fits *)

Lemma entries_iff d (M : mat T (dimn d)) (f : nat -> nat -> Z) (P : nat -> nat -> Prop) C :
  (forall i j, (i < dimn d)%nat -> (j < dimn d)%nat -> forall z, mfun M i j = Some z <-> P i j /\ z = f i j) ->
  run_m M = Ok C <-> forall i j, (i < dimn d)%nat -> (j < dimn d)%nat -> P i j /\ mfun C i j = f i j.
Proof.
  intros H. rewrite run_m_entry. split; intros E i j Hi Hj; apply (H i j Hi Hj); [now apply E|now apply E].
Qed.

Lemma c76_debug_add_iff : forall d (A B C : mat Z (dimn d)),
  run_m (d_add d (im A : mat T _) (im B)) = Ok C <->
  forall i j, (i < dimn d)%nat -> (j < dimn d)%nat -> fits (mfun A i j + mfun B i j) /\ mfun C i j = mfun A i j + mfun B i j.
Proof.
  intros d A B C. apply entries_iff. intros i j Hi Hj z. rewrite d_add_entry, !mfun_im by assumption. apply ck_some.
Qed.

Lemma c76_debug_sub_iff : forall d (A B C : mat Z (dimn d)),
  run_m (d_sub d (im A : mat T _) (im B)) = Ok C <->
  forall i j, (i < dimn d)%nat -> (j < dimn d)%nat -> fits (mfun A i j - mfun B i j) /\ mfun C i j = mfun A i j - mfun B i j.
Proof.
  intros d A B C. apply entries_iff. intros i j Hi Hj z. rewrite d_sub_entry, !mfun_im by assumption. apply ck_some.
Qed.

Lemma c76_debug_scale_iff : forall d (A C : mat Z (dimn d)) s,
  run_m (d_scale d (im A : mat T _) (Some s)) = Ok C <->
  forall i j, (i < dimn d)%nat -> (j < dimn d)%nat -> fits (mfun A i j * s) /\ mfun C i j = mfun A i j * s.
Proof.
  intros d A C s. apply entries_iff. intros i j Hi Hj z. rewrite d_scale_entry, !mfun_im by assumption. apply ck_some.
Qed.

Lemma c76_debug_neg_iff : forall d (A C : mat Z (dimn d)),
  run_m (d_neg d (im A : mat T _)) = Ok C <->
  forall i j, (i < dimn d)%nat -> (j < dimn d)%nat -> fits (- mfun A i j) /\ mfun C i j = - mfun A i j.
Proof.
  intros d A C. apply entries_iff. intros i j Hi Hj z. rewrite d_neg_entry, !mfun_im by assumption. apply ck_some.
Qed.

(** the quotient truncates towards zero; a zero divisor panics (so does the
    quotient of the least number by -1, in release builds as well) *)
Lemma c76_div_iff : forall d (A C : mat Z (dimn d)) s,
  run_m (d_div d (im A : mat T _) (Some s)) = Ok C <->
  forall i j, (i < dimn d)%nat -> (j < dimn d)%nat ->
    (s <> 0 /\ fits (Z.quot (mfun A i j) s)) /\ mfun C i j = Z.quot (mfun A i j) s.
Proof.
  intros d A C s. apply entries_iff. intros i j Hi Hj z. rewrite d_div_entry, !mfun_im by assumption.
  cbn [div chk_Num c_div]. destruct (Z.eqb_spec s 0) as [->|N].
  - split; [discriminate|intros [[X _] _]; now contradict X].
  - rewrite ck_some. tauto.
Qed.

(** scaling and dividing by the same number is the identity unless the scaling
    panics *)
Lemma c76_div_scale : forall d (A B : mat Z (dimn d)) s, s <> 0 ->
  (forall i j, (i < dimn d)%nat -> (j < dimn d)%nat -> fits (mfun A i j)) ->
  run_m (d_scale d (im A : mat T _) (Some s)) = Ok B -> run_m (d_div d (im B : mat T _) (Some s)) = Ok A.
Proof.
  intros d A B s Hs HA E. apply c76_div_iff. intros i j Hi Hj.
  destruct (proj1 (c76_debug_scale_iff d A B s) E i j Hi Hj) as [F ->].
  rewrite Z.quot_mul by exact Hs. auto.
Qed.

(** *** products *)

Lemma c76_debug_dot_iff : forall d (u v : arr Z (dimn d)) z,
  run_s (d_vdot d (iv u : arr T _) (iv v)) = Ok z <->
  dot_fits (dimn d) (fun k => vfun u k * vfun v k) /\ z = sumn (dimn d) (fun k => vfun u k * vfun v k).
Proof.
  intros d u v z. rewrite d_vdot_dotl. rewrite <- (dotl_chk (dimn d) (vfun (iv u)) (vfun (iv v)) (vfun u) (vfun v) z (dimn_pos d)).
  - unfold run_s. destruct (dotl _ _ _) as [x| ]; split; intros E; try discriminate; congruence.
  - intros k Hk. rewrite !vfun_iv by exact Hk. auto.
Qed.

Lemma c76_debug_mul_v_iff : forall d (A : mat Z (dimn d)) (v u : arr Z (dimn d)),
  run_v (d_mul_v d (im A : mat T _) (iv v)) = Ok u <->
  forall i, (i < dimn d)%nat -> dot_fits (dimn d) (fun k => mfun A i k * vfun v k)
    /\ vfun u i = sumn (dimn d) (fun k => mfun A i k * vfun v k).
Proof.
  intros d A v u. rewrite run_v_entry.
  assert (G : forall i, (i < dimn d)%nat -> forall z, vfun (d_mul_v d (im A : mat T _) (iv v)) i = Some z <->
    dot_fits (dimn d) (fun k => mfun A i k * vfun v k) /\ z = sumn (dimn d) (fun k => mfun A i k * vfun v k)).
  { intros i Hi z. rewrite d_mul_v_dotl by exact Hi. apply dotl_chk; [apply dimn_pos| ].
    intros k Hk. rewrite mfun_im, vfun_iv by assumption. auto. }
  split; intros H i Hi; apply (G i Hi); now apply H.
Qed.

(** [ord] is the order in which the code adds the terms *)
Lemma c76_debug_mul_iff : forall d (A B C : mat Z (dimn d)),
  run_m (d_mul d (im A : mat T _) (im B)) = Ok C <->
  forall i j, (i < dimn d)%nat -> (j < dimn d)%nat ->
    dot_fits (dimn d) (fun k => mfun A i (ord d i k) * mfun B (ord d i k) j)
    /\ mfun C i j = sumn (dimn d) (fun k => mfun A i k * mfun B k j).
Proof.
  intros d A B C. apply (entries_iff d _ (fun i j => sumn (dimn d) (fun k => mfun A i k * mfun B k j))
    (fun i j => dot_fits (dimn d) (fun k => mfun A i (ord d i k) * mfun B (ord d i k) j))).
  intros i j Hi Hj z. rewrite d_mul_dotl by assumption.
  rewrite <- (sumn_ord Z_ring d i (fun k => mfun A i k * mfun B k j)).
  apply (dotl_chk (dimn d) _ _ (fun k => mfun A i (ord d i k)) (fun k => mfun B (ord d i k) j)); [apply dimn_pos| ].
  intros k Hk. rewrite !mfun_im by (auto using ord_lt). auto.
Qed.

(** entries whose absolute products sum to at most the largest number *)
Lemma dot_fits_bound n p : 0 < w -> (sg = false -> forall k, (k < n)%nat -> 0 <= p k) ->
  sumn n (fun k => Z.abs (p k)) <= hi sg w -> dot_fits n p.
Proof.
  intros Hw Hs B.
  assert (A : forall m, Z.abs (sumn m p) <= sumn m (fun k => Z.abs (p k)) /\ 0 <= sumn m (fun k => Z.abs (p k))).
  { induction m as [ |m IH]; [cbn; lia| ]. cbn [sumn add Z_Num]. lia. }
  assert (M : forall m l, sumn m (fun k => Z.abs (p k)) <= sumn (m + l) (fun k => Z.abs (p k))).
  { intros m. induction l as [ |l IH]; [rewrite Nat.add_0_r; lia| ]. rewrite Nat.add_succ_r. cbn [sumn add Z_Num]. lia. }
  assert (Q : sg = false -> forall m, (m <= n)%nat -> 0 <= sumn m p).
  { intros S. induction m as [ |m IH]; [cbn; lia| ]. intros L. cbn [sumn add Z_Num].
    specialize (Hs S m ltac:(lia)). specialize (IH ltac:(lia)). lia. }
  intros m Hm. pose proof (A m) as [_ A0]. pose proof (A (S m)) as [A1 _].
  pose proof (M (S m) (n - S m)%nat) as Mm. replace (S m + (n - S m))%nat with n in Mm by lia.
  assert (P : Z.abs (p m) <= sumn (S m) (fun k => Z.abs (p k))) by (cbn [sumn add Z_Num]; lia).
  unfold InstI.fits, hi, lo in *. destruct sg.
  - replace (2 ^ w) with (2 * 2 ^ (w - 1)) in * by (rewrite <- Z.pow_succ_r by lia; f_equal; lia). lia.
  - specialize (Hs eq_refl). specialize (Q eq_refl). specialize (Hs m Hm). specialize (Q (S m) ltac:(lia)). lia.
Qed.

Lemma fits_nonneg z : sg = false -> fits z -> 0 <= z.
Proof. intros ->. unfold InstI.fits, lo. lia. Qed.

Lemma c76_debug_mul_bound : forall d (A B : mat Z (dimn d)), 0 < w ->
  (forall i j, (i < dimn d)%nat -> (j < dimn d)%nat -> fits (mfun A i j) /\ fits (mfun B i j)) ->
  (forall i j, (i < dimn d)%nat -> (j < dimn d)%nat ->
     sumn (dimn d) (fun k => Z.abs (mfun A i k * mfun B k j)) <= hi sg w) ->
  exists C, run_m (d_mul d (im A : mat T _) (im B)) = Ok C
    /\ forall i j, (i < dimn d)%nat -> (j < dimn d)%nat -> mfun C i j = sumn (dimn d) (fun k => mfun A i k * mfun B k j).
Proof.
  intros d A B Hw H Bd.
  assert (D : forall i j, (i < dimn d)%nat -> (j < dimn d)%nat ->
    dot_fits (dimn d) (fun k => mfun A i (ord d i k) * mfun B (ord d i k) j)).
  { intros i j Hi Hj. apply dot_fits_bound; [exact Hw| | ].
    - intros S k Hk. pose proof (ord_lt d i k Hk) as Ho. apply Z.mul_nonneg_nonneg; apply fits_nonneg; auto; now apply H.
    - rewrite (sumn_ord Z_ring d i (fun k => Z.abs (mfun A i k * mfun B k j))). now apply Bd. }
  destruct (run_m_total (d_mul d (im A : mat T _) (im B))) as [C E].
  { intros i j Hi Hj. rewrite d_mul_dotl by assumption. intros N.
    assert (X : dotl (dimn d) (fun k => mfun (im A : mat T _) i (ord d i k)) (fun k => mfun (im B : mat T _) (ord d i k) j)
      = Some (sumn (dimn d) (fun k => mfun A i (ord d i k) * mfun B (ord d i k) j))).
    { apply (dotl_chk _ _ _ (fun k => mfun A i (ord d i k)) (fun k => mfun B (ord d i k) j)); [apply dimn_pos| |auto]. intros k Hk. rewrite !mfun_im by (auto using ord_lt). auto. }
    discriminate (eq_trans (eq_sym N) X). }
  exists C. split; [exact E| ]. intros i j Hi Hj. now apply (proj1 (c76_debug_mul_iff d A B C) E i j).
Qed.

End Debug.

(** ** Quaternions of signed integers in a debug build *)
Section Quats.
Variable w : Z.
Hypothesis Hw : 0 < w.
Notation T := (chk true w).

(** [x] is a panic or the number [n], and it is the number when the bound [b] fits *)
Definition tri (x : T) (n b : Z) : Prop :=
  (1 <= b /\ Z.abs n <= b) /\ (x = None \/ x = Some n) /\ (b <= hi true w -> x = Some n).

Lemma fits_abs z : Z.abs z <= hi true w -> fits true w z.
Proof.
  unfold fits, hi, lo. replace (2 ^ w) with (2 * 2 ^ (w - 1)) by (rewrite <- Z.pow_succ_r by lia; f_equal; lia). lia.
Qed.

Lemma ck_tri z b : 1 <= b -> Z.abs z <= b -> tri (ck true w z) z b.
Proof.
  intros B L. split; [lia|split].
  - unfold ck. destruct (fitsb true w z); auto.
  - intros H. apply ck_some. split; [apply fits_abs; lia|reflexivity].
Qed.

Lemma tri_lift2 f fb x n b y m c :
  tri x n b -> tri y m c -> b <= fb -> c <= fb -> Z.abs (f n m) <= fb -> tri (c2 true w f x y) (f n m) fb.
Proof.
  intros ((B1 & B2) & X & X') ((C1 & C2) & Y & Y') L1 L2 L. split; [lia|split].
  - destruct X as [-> | ->]; [left; reflexivity| ]. destruct Y as [-> | ->]; [left; reflexivity| ]. cbn [c2].
    unfold ck. destruct (fitsb true w (f n m)); auto.
  - intros H. rewrite X', Y' by lia. cbn [c2]. apply ck_some. split; [apply fits_abs; lia|reflexivity].
Qed.

Lemma tri_add x n b y m c : tri x n b -> tri y m c -> tri (add x y) (n + m) (b + c).
Proof. intros X Y. pose proof X as ((? & ?) & _). pose proof Y as ((? & ?) & _). apply (tri_lift2 Z.add (b + c) x n b y m c); auto; lia. Qed.
Lemma tri_sub x n b y m c : tri x n b -> tri y m c -> tri (sub x y) (n - m) (b + c).
Proof. intros X Y. pose proof X as ((? & ?) & _). pose proof Y as ((? & ?) & _). apply (tri_lift2 Z.sub (b + c) x n b y m c); auto; lia. Qed.
Lemma tri_mul x n b y m c : tri x n b -> tri y m c -> tri (mul x y) (n * m) (b * c).
Proof.
  intros X Y. pose proof X as ((? & ?) & _). pose proof Y as ((? & ?) & _).
  apply (tri_lift2 Z.mul (b * c) x n b y m c); auto; nia.
Qed.
Lemma tri_neg x n b : tri x n b -> tri (neg x) (- n) b.
Proof.
  intros ((B1 & B2) & X & X'). split; [lia|split].
  - destruct X as [-> | ->]; [left; reflexivity| ]. cbn [neg chk_Signed c1]. unfold ck. destruct (fitsb true w (- n)); auto.
  - intros H. rewrite X' by lia. cbn [neg chk_Signed c1]. apply ck_some. split; [apply fits_abs; lia|reflexivity].
Qed.
Lemma tri_val n b : 1 <= b -> Z.abs n <= b -> tri (Some n) n b.
Proof. intros. split; [lia|auto]. Qed.

Lemma tri_sound x n b z : tri x n b -> x = Some z -> z = n.
Proof. intros (_ & [-> | ->] & _) E; [discriminate|now injection E]. Qed.

Lemma tri_weaken x n b b' : tri x n b -> b <= b' -> tri x n b'.
Proof. intros (X & Y & H) L. split; [lia|split; [exact Y|intros; apply H; lia]]. Qed.

Lemma tri_one : tri one (one : Z) 1.
Proof. apply tri_val; cbn; lia. Qed.
Lemma tri_zero : tri zero (zero : Z) 1.
Proof. apply tri_val; cbn; lia. Qed.

Definition trv (x : V3 T) (n : V3 Z) (b : Z) : Prop :=
  tri (ix0 x) (ix0 n) b /\ tri (ix1 x) (ix1 n) b /\ tri (ix2 x) (ix2 n) b.
Definition trq (x : Quaternion T) (n : Quaternion Z) (b : Z) : Prop :=
  normalized x = normalized n /\ tri (q0 x) (q0 n) b /\ trv (q x) (q n) b.

Ltac tri_go := lazymatch goal with
  | |- tri (add _ _) _ _ => refine (tri_add _ _ _ _ _ _ _ _); tri_go
  | |- tri (sub _ _) _ _ => refine (tri_sub _ _ _ _ _ _ _ _); tri_go
  | |- tri (mul _ _) _ _ => refine (tri_mul _ _ _ _ _ _ _ _); tri_go
  | |- tri (neg _) _ _ => refine (tri_neg _ _ _ _); tri_go
  | |- tri one _ _ => apply tri_one
  | |- tri zero _ _ => apply tri_zero
  | |- _ => eassumption
  end.
Ltac tri_des :=
  repeat match goal with
  | a : Quaternion _ |- _ => destruct a as [?k (?x & ?y & ?z & []) ?f]
  | a : V3 _ |- _ => destruct a as (?x & ?y & ?z & [])
  end; cbn [trq trv q0 q normalized ix0 ix1 ix2 ahd atl fst snd] in *;
  repeat match goal with H : trq _ _ _ |- _ => destruct H as (? & ? & ?) | H : trv _ _ _ |- _ => destruct H as (? & ? & ?) end;
  cbn [q0 q normalized ix0 ix1 ix2 ahd atl fst snd] in *.
Ltac tri_fin := eapply tri_weaken; [tri_go| ];
  repeat match goal with H : tri _ _ _ |- _ => destruct H as ((? & ?) & _) end; nia.

Ltac tri_op :=
  lazy beta iota zeta delta [q_mul q_add q_sub q_scale q_neg q_conj q_new q_mul_v q_real q_imag q_dot q_abs2 acons anil v3_dot v3_add v3_sub v3_neg v3_scale v3_cross
    q0 q ix0 ix1 ix2 ahd atl fst snd]; tri_fin.

Lemma trq_mul x n b y m c : trq x n b -> trq y m c -> trq (q_mul x y) (q_mul n m) (4 * (b * c)).
Proof. intros X Y. tri_des. split; [reflexivity|split; [ |split; [ |split]]]; tri_op. Qed.
Lemma trq_add x n b y m c : trq x n b -> trq y m c -> trq (q_add x y) (q_add n m) (b + c).
Proof. intros X Y. tri_des. split; [reflexivity|split; [ |split; [ |split]]]; tri_op. Qed.
Lemma trq_sub x n b y m c : trq x n b -> trq y m c -> trq (q_sub x y) (q_sub n m) (b + c).
Proof. intros X Y. tri_des. split; [reflexivity|split; [ |split; [ |split]]]; tri_op. Qed.
Lemma trq_scale x n b s r c : trq x n b -> tri s r c -> trq (q_scale x s) (q_scale n r) (b * c).
Proof. intros X Y. tri_des. split; [reflexivity|split; [ |split; [ |split]]]; tri_op. Qed.
Lemma trq_neg x n b : trq x n b -> trq (q_neg x) (q_neg n) b.
Proof. intros X. tri_des. split; [reflexivity|split; [ |split; [ |split]]]; tri_op. Qed.
Lemma trq_conj x n b : trq x n b -> trq (q_conj x) (q_conj n) b.
Proof. intros X. tri_des. split; [reflexivity|split; [ |split; [ |split]]]; tri_op. Qed.
Lemma tr_dot x n b y m c : trq x n b -> trq y m c -> tri (q_dot x y) (q_dot n m) (4 * (b * c)).
Proof. intros X Y. tri_des. tri_op. Qed.
Lemma tr_abs2 x n b : trq x n b -> tri (q_abs2 x) (q_abs2 n) (4 * (b * b)).
Proof. intros X. tri_des. tri_op. Qed.
Lemma tr_mul_v x n b y m c : trq x n b -> trv y m c -> trv (q_mul_v x y) (q_mul_v n m) (c + 4 * (b * (b * c)) + 8 * (b * (b * c))).
Proof. intros X Y. tri_des. cbv zeta. split; [ |split]; tri_op. Qed.


Definition qbound (a : Quaternion Z) (K : Z) : Prop :=
  Z.abs (q0 a) <= K /\ Z.abs (ix0 (q a)) <= K /\ Z.abs (ix1 (q a)) <= K /\ Z.abs (ix2 (q a)) <= K.

Lemma trq_iq a K : 1 <= K -> qbound a K -> trq (iq a) a K.
Proof.
  intros HK (A & B & C & D). destruct a as [k (x & y & z & []) f]. cbn [q0 q ix0 ix1 ix2 ahd atl fst snd] in *.
  split; [reflexivity|split; [ |split; [ |split]]]; apply tri_val; assumption.
Qed.
Lemma qbound_ex a : exists K, 1 <= K /\ qbound a K.
Proof.
  exists (1 + Z.abs (q0 a) + Z.abs (ix0 (q a)) + Z.abs (ix1 (q a)) + Z.abs (ix2 (q a))). unfold qbound. lia.
Qed.

Lemma trq_sound x n b c : trq x n b -> run_q x = Ok c -> c = n.
Proof.
  intros H E. apply run_q_iff in E. subst x. destruct c as [k (x & y & z & []) f], n as [k' (x' & y' & z' & []) f'].
  destruct H as (F & A & B & C & D). cbn in F. subst f'. pose proof (tri_sound _ _ _ k A eq_refl) as ->.
  pose proof (tri_sound _ _ _ x B eq_refl) as ->. pose proof (tri_sound _ _ _ y C eq_refl) as ->.
  pose proof (tri_sound _ _ _ z D eq_refl) as ->. reflexivity.
Qed.
Lemma trq_total x n b : trq x n b -> b <= hi true w -> run_q x = Ok n.
Proof.
  intros (F & (_ & _ & A) & (_ & _ & B) & (_ & _ & C) & (_ & _ & D)) H. apply run_q_iff.
  destruct x as [k (x & y & z & []) f], n as [k' (x' & y' & z' & []) f']. cbn [q0 q normalized ix0 ix1 ix2 ahd atl fst snd] in *.
  subst f'. rewrite (A H), (B H), (C H), (D H). reflexivity.
Qed.

(** a quaternion result that is returned is the exact one *)
Lemma c76_debug_quat_exact : forall (a b c : Quaternion Z) (s : Z),
  (run_q (q_add (iq a : Quaternion T) (iq b)) = Ok c -> c = q_add a b)
  /\ (run_q (q_sub (iq a : Quaternion T) (iq b)) = Ok c -> c = q_sub a b)
  /\ (run_q (q_mul (iq a : Quaternion T) (iq b)) = Ok c -> c = q_mul a b)
  /\ (run_q (q_scale (iq a : Quaternion T) (Some s)) = Ok c -> c = q_scale a s)
  /\ (run_q (q_neg (iq a : Quaternion T)) = Ok c -> c = q_neg a)
  /\ (run_q (q_conj (iq a : Quaternion T)) = Ok c -> c = q_conj a).
Proof.
  intros a b c s. destruct (qbound_ex a) as (K & K1 & HK). destruct (qbound_ex b) as (L & L1 & HL).
  pose proof (trq_iq a K K1 HK) as X. pose proof (trq_iq b L L1 HL) as Y.
  assert (S : tri (Some s) s (1 + Z.abs s)) by (apply tri_val; lia).
  split; [ |split; [ |split; [ |split; [ |split]]]].
  - exact (trq_sound _ _ _ c (trq_add _ _ _ _ _ _ X Y)).
  - exact (trq_sound _ _ _ c (trq_sub _ _ _ _ _ _ X Y)).
  - exact (trq_sound _ _ _ c (trq_mul _ _ _ _ _ _ X Y)).
  - exact (trq_sound _ _ _ c (trq_scale _ _ _ _ _ _ X S)).
  - exact (trq_sound _ _ _ c (trq_neg _ _ _ X)).
  - exact (trq_sound _ _ _ c (trq_conj _ _ _ X)).
Qed.

(** a product of quaternions of small components does not panic *)
Lemma c76_debug_quat_bound : forall (a b : Quaternion Z) K L, 1 <= K -> 1 <= L -> qbound a K -> qbound b L ->
  4 * (K * L) <= hi true w -> run_q (q_mul (iq a : Quaternion T) (iq b)) = Ok (q_mul a b).
Proof.
  intros a b K L K1 L1 HK HL H.
  exact (trq_total _ _ _ (trq_mul _ _ _ _ _ _ (trq_iq a K K1 HK) (trq_iq b L L1 HL)) H).
Qed.

(** dual quaternions *)
Definition trd (x : DualQuaternion T) (n : DualQuaternion Z) (b : Z) : Prop :=
  dq_normalized x = dq_normalized n /\ trq (q_real_ x) (q_real_ n) b /\ trq (q_dual_ x) (q_dual_ n) b.
Lemma trq_weaken x n b b' : trq x n b -> b <= b' -> trq x n b'.
Proof.
  intros (F & A & B & C & D) L. split; [exact F|split; [ |split; [ |split]]]; eapply tri_weaken; eassumption.
Qed.
Lemma trq_pos x n b : trq x n b -> 1 <= b.
Proof. intros (_ & ((H & _) & _) & _). exact H. Qed.
Lemma trd_mul x n b y m c : trd x n b -> trd y m c -> trd (dq_mul x y) (dq_mul n m) (8 * (b * c)).
Proof.
  intros (_ & A & B) (_ & C & D). pose proof (trq_pos _ _ _ A). pose proof (trq_pos _ _ _ C).
  split; [reflexivity|split].
  - eapply trq_weaken; [apply trq_mul; eassumption|nia].
  - eapply trq_weaken; [apply trq_add; apply trq_mul; eassumption|nia].
Qed.
Lemma trd_sound x n b c : trd x n b -> run_dq x = Ok c -> c = n.
Proof.
  intros (F & A & B) E. apply run_dq_iff in E. subst x. destruct c as [r d f], n as [r' d' f']. cbn in F. subst f'.
  assert (X : r = r') by (apply (trq_sound _ _ _ r A); now apply run_q_iff).
  assert (Y : d = d') by (apply (trq_sound _ _ _ d B); now apply run_q_iff). subst. reflexivity.
Qed.
Lemma trd_total x n b : trd x n b -> b <= hi true w -> run_dq x = Ok n.
Proof.
  intros (F & A & B) H. unfold run_dq. rewrite (trq_total _ _ _ A H), (trq_total _ _ _ B H), F. now destruct n.
Qed.
Lemma trd_idq a K : 1 <= K -> qbound (q_real_ a) K -> qbound (q_dual_ a) K -> trd (idq a) a K.
Proof. intros K1 A B. split; [reflexivity|split; apply trq_iq; assumption]. Qed.

Lemma c76_debug_dual_exact : forall a b c : DualQuaternion Z,
  run_dq (dq_mul (idq a : DualQuaternion T) (idq b)) = Ok c -> c = dq_mul a b.
Proof.
  intros a b c.
  assert (G : forall a, exists K, 1 <= K /\ qbound (q_real_ a) K /\ qbound (q_dual_ a) K).
  { intros x. destruct (qbound_ex (q_real_ x)) as (K & K1 & HK). destruct (qbound_ex (q_dual_ x)) as (L & L1 & HL).
    exists (K + L). unfold qbound in *. lia. }
  destruct (G a) as (K & K1 & A & A'). destruct (G b) as (L & L1 & B & B').
  exact (trd_sound _ _ _ c (trd_mul _ _ _ _ _ _ (trd_idq a K K1 A A') (trd_idq b L L1 B B'))).
Qed.

Lemma c76_debug_dual_bound : forall (a b : DualQuaternion Z) K L, 1 <= K -> 1 <= L ->
  qbound (q_real_ a) K -> qbound (q_dual_ a) K -> qbound (q_real_ b) L -> qbound (q_dual_ b) L ->
  8 * (K * L) <= hi true w -> run_dq (dq_mul (idq a : DualQuaternion T) (idq b)) = Ok (dq_mul a b).
Proof.
  intros a b K L K1 L1 A A' B B' H.
  exact (trd_total _ _ _ (trd_mul _ _ _ _ _ _ (trd_idq a K K1 A A') (trd_idq b L L1 B B')) H).
Qed.

(** rotating a vector *)
Lemma c76_debug_rotate : forall (a : Quaternion Z) (v u : V3 Z),
  run_v (n := 3) (q_mul_v (iq a : Quaternion T) (iv (n := 3) v)) = Ok u -> u = q_mul_v a v.
Proof.
  intros a v u E. destruct (qbound_ex a) as (K & K1 & HK).
  assert (Y : trv (iv (n := 3) v) v (1 + Z.abs (ix0 v) + Z.abs (ix1 v) + Z.abs (ix2 v))).
  { destruct v as (x & y & z & []). cbn [ix0 ix1 ix2 ahd atl fst snd]. split; [ |split]; apply tri_val; cbn [ix0 ix1 ix2 ahd atl fst snd]; lia. }
  pose proof (tr_mul_v _ _ _ _ _ _ (trq_iq a K K1 HK) Y) as (A & B & C).
  apply run_v_iff in E. rewrite E in A, B, C. destruct u as (x & y & z & []).
  destruct (q_mul_v a v) as (x' & y' & z' & []).
  pose proof (tri_sound _ _ _ x A eq_refl) as ->. pose proof (tri_sound _ _ _ y B eq_refl) as ->.
  pose proof (tri_sound _ _ _ z C eq_refl) as ->. reflexivity.
Qed.
End Quats.

(** ** Release builds *)

(** machine integers with the given values *)
Definition wr (w : Z) (Hm : 0 < 2 ^ w) (z : Z) : wint (2 ^ w) := wrap (2 ^ w) Hm z.
Definition wv w Hm {n} (v : arr Z n) : arr (wint (2 ^ w)) n := amap (wr w Hm) v.
Definition wm w Hm {n} (A : mat Z n) : mat (wint (2 ^ w)) n := amap (amap (wr w Hm)) A.
Definition wq w Hm (a : Quaternion Z) : Quaternion (wint (2 ^ w)) :=
  mkQ (wr w Hm (q0 a)) (wv w Hm (n := 3) (q a)) (normalized a).
Definition wdq w Hm (a : DualQuaternion Z) : DualQuaternion (wint (2 ^ w)) :=
  mkDQ (wq w Hm (q_real_ a)) (wq w Hm (q_dual_ a)) (dq_normalized a).

Section Release.
Variables (sg : bool) (w : Z).
Hypothesis Hm : 0 < 2 ^ w.
Notation W := (wint (2 ^ w)).
#[local] Instance W_Num : Num W := wint_Num (2 ^ w) Hm.
#[local] Instance W_Signed : Signed W := wint_Signed (2 ^ w) Hm.
Notation wr := (wr w Hm).
Notation wv := (wv w Hm).
Notation wm := (wm w Hm).
Notation wq := (wq w Hm).
Notation wdq := (wdq w Hm).

Lemma RW : @RingLaws W W_Num W_Signed.
Proof. exact (wint_ring (2 ^ w) Hm). Qed.

Lemma wr_add a b : add (wr a) (wr b) = wr (a + b).
Proof. apply wint_eq. cbn. now rewrite <- Z.add_mod by lia. Qed.
Lemma wr_sub a b : sub (wr a) (wr b) = wr (a - b).
Proof. apply wint_eq. cbn. now rewrite <- Zminus_mod. Qed.
Lemma wr_mul a b : mul (wr a) (wr b) = wr (a * b).
Proof. apply wint_eq. cbn. now rewrite <- Z.mul_mod by lia. Qed.
Lemma wr_neg a : neg (wr a) = wr (- a).
Proof. apply wint_eq. cbn. rewrite <- !(Z.sub_0_l (_ : Z)). now rewrite Zminus_mod_idemp_r. Qed.

Lemma wr_sumn n f : sumn n (fun k => wr (f k)) = wr (sumn n f).
Proof. induction n as [ |n IH]; [reflexivity| ]. cbn [sumn]. rewrite IH. apply wr_add. Qed.

Lemma sumn_ext' {T} {H : Num T} n (f g : nat -> T) : (forall k, (k < n)%nat -> f k = g k) -> sumn n f = sumn n g.
Proof.
  induction n as [ |n IH]; [reflexivity| ]. intros E. cbn [sumn]. rewrite IH by (intros; apply E; lia). f_equal. apply E. lia.
Qed.

Lemma vfun_wv {n} (v : arr Z n) k : (k < n)%nat -> vfun (wv v) k = wr (vfun v k).
Proof.
  revert k. induction n as [ |n IH]; [lia| ]. destruct v as [x v]. intros [ |k] H; [reflexivity| ]. apply (IH v k). lia.
Qed.
Lemma mfun_wm {n} (A : mat Z n) i j : (i < n)%nat -> (j < n)%nat -> mfun (wm A) i j = wr (mfun A i j).
Proof.
  enough (G : forall m (A : arr (arr Z n) m), (i < m)%nat -> (j < n)%nat ->
    mfun (T := W) (amap (amap wr) A) i j = wr (mfun A i j)) by apply G.
  revert i. clear A. induction i as [ |i IH]; intros [ |m] A Hi Hj; try lia.
  - destruct A as [r A]. apply (vfun_wv r j Hj).
  - destruct A as [r A]. apply (IH m A); lia.
Qed.

(** every entry of a product is the exact one, wrapped once *)
Lemma c76_release_mul : forall d (A B : mat Z (dimn d)) i j, (i < dimn d)%nat -> (j < dimn d)%nat ->
  rd sg w (mfun (d_mul d (wm A) (wm B)) i j) = wrap_to sg w (sumn (dimn d) (fun k => mfun A i k * mfun B k j)).
Proof.
  intros d A B i j Hi Hj. rewrite (d_mul_entry RW) by assumption. unfold mmul.
  rewrite (sumn_ext' (dimn d) _ (fun k => wr (mfun A i k * mfun B k j))).
  - rewrite (wr_sumn (dimn d) (fun k => mfun A i k * mfun B k j)). apply rd_wrap.
  - intros k Hk. rewrite !mfun_wm by assumption. apply wr_mul.
Qed.

Lemma c76_release_mul_v : forall d (A : mat Z (dimn d)) (v : arr Z (dimn d)) i, (i < dimn d)%nat ->
  rd sg w (vfun (d_mul_v d (wm A) (wv v)) i) = wrap_to sg w (sumn (dimn d) (fun k => mfun A i k * vfun v k)).
Proof.
  intros d A v i Hi. rewrite (d_mul_v_entry RW) by assumption.
  rewrite (sumn_ext' (dimn d) _ (fun k => wr (mfun A i k * vfun v k))).
  - rewrite (wr_sumn (dimn d) (fun k => mfun A i k * vfun v k)). apply rd_wrap.
  - intros k Hk. rewrite mfun_wm, vfun_wv by assumption. apply wr_mul.
Qed.

Lemma c76_release_dot : forall d (u v : arr Z (dimn d)),
  rd sg w (d_vdot d (wv u) (wv v)) = wrap_to sg w (sumn (dimn d) (fun k => vfun u k * vfun v k)).
Proof.
  intros d u v. rewrite (d_vdot_entry RW).
  rewrite (sumn_ext' (dimn d) _ (fun k => wr (vfun u k * vfun v k))).
  - rewrite (wr_sumn (dimn d) (fun k => vfun u k * vfun v k)). apply rd_wrap.
  - intros k Hk. rewrite !vfun_wv by assumption. apply wr_mul.
Qed.

Lemma c76_release_linear : forall d (A B : mat Z (dimn d)) s i j, (i < dimn d)%nat -> (j < dimn d)%nat ->
  rd sg w (mfun (d_add d (wm A) (wm B)) i j) = wrap_to sg w (mfun A i j + mfun B i j)
  /\ rd sg w (mfun (d_sub d (wm A) (wm B)) i j) = wrap_to sg w (mfun A i j - mfun B i j)
  /\ rd sg w (mfun (d_neg d (wm A)) i j) = wrap_to sg w (- mfun A i j)
  /\ rd sg w (mfun (d_scale d (wm A) (wr s)) i j) = wrap_to sg w (mfun A i j * s).
Proof.
  intros d A B s i j Hi Hj.
  rewrite d_add_entry, d_sub_entry, d_neg_entry, d_scale_entry, !mfun_wm, wr_add, wr_sub, wr_neg, wr_mul by assumption.
  unfold wr. rewrite !rd_wrap. auto.
Qed.

(** quaternions: the exact components, wrapped once *)
Lemma c76_release_quat : forall a b : Quaternion Z,
  q_mul (wq a) (wq b) = wq (q_mul a b) /\ q_add (wq a) (wq b) = wq (q_add a b)
  /\ q_sub (wq a) (wq b) = wq (q_sub a b) /\ q_conj (wq a) = wq (q_conj a).
Proof.
  intros [k (x & y & z & []) f] [k' (x' & y' & z' & []) f'].
  repeat split;
  lazy beta iota zeta delta [q_mul q_add q_sub q_conj q_new wq wv q0 q normalized v3_dot v3_add v3_sub v3_neg v3_scale v3_cross
    amap acons anil ix0 ix1 ix2 ahd atl fst snd]; rewrite ?wr_mul, ?wr_neg, ?wr_add, ?wr_sub, ?wr_add; reflexivity.
Qed.

Lemma c76_release_dual : forall a b : DualQuaternion Z, dq_mul (wdq a) (wdq b) = wdq (dq_mul a b).
Proof.
  intros [r d f] [r' d' f']. unfold dq_mul, wdq, dq_new. cbn [q_real_ q_dual_ dq_normalized].
  destruct (c76_release_quat r r') as (-> & _). destruct (c76_release_quat r d') as (-> & _).
  destruct (c76_release_quat d r') as (-> & _).
  destruct (c76_release_quat (q_mul r d') (q_mul d r')) as (_ & -> & _). reflexivity.
Qed.

(** a debug build that does not panic and a release build compute the same *)
Lemma c76_debug_release : forall d (A B C : mat Z (dimn d)),
  run_m (d_mul d (im A : mat (chk sg w) _) (im B)) = Ok C -> d_mul d (wm A) (wm B) = wm C.
Proof.
  intros d A B C E. apply mfun_ext. intros i j Hi Hj.
  destruct (proj1 (c76_debug_mul_iff sg w d A B C) E i j Hi Hj) as [_ F].
  rewrite (d_mul_entry RW), mfun_wm, F by assumption. unfold mmul.
  rewrite <- (wr_sumn (dimn d) (fun k => mfun A i k * mfun B k j)). apply sumn_ext'. intros k Hk.
  now rewrite !mfun_wm, wr_mul by assumption.
Qed.

(** wrapping arithmetic obeys the ring laws, whatever overflows on the way *)
Lemma c76_release_ring : forall d (A B C : mat W (dimn d)),
  d_mul d (d_mul d A B) C = d_mul d A (d_mul d B C)
  /\ d_mul d A (d_add d B C) = d_add d (d_mul d A B) (d_mul d A C)
  /\ d_sub d (d_add d A B) B = A.
Proof.
  intros d A B C. split; [ |split].
  - apply (c01_mul_assoc RW).
  - apply (c01_mul_add_l RW).
  - apply mfun_ext. intros i j Hi Hj. rewrite d_sub_entry, d_add_entry by assumption.
    set (a := mfun A i j). set (b := mfun B i j).
    rewrite (Rsub_def RW). rewrite <- (Radd_assoc RW). rewrite (Ropp_def RW). rewrite (Radd_comm RW). apply (Radd_0_l RW).
Qed.
End Release.

(** ** Cases *)
Section Cases.
Notation i8 := (chk true 8).
Notation i32 := (chk true 32).
Let A : M22 Z := [| [| 100000; -3 |]; [| 7; 20000 |] |].
Let B : M22 Z := [| [| 20000; 5 |]; [| -1; 30 |] |].

Example C76_case_range : fits true 32 (-2147483648) /\ fits true 32 2147483647 /\ ~ fits true 32 2147483648
  /\ fits false 8 255 /\ ~ fits false 8 (-1).
Proof. unfold fits, lo, hi. cbn. lia. Qed.

(** i32: a product that fits, and the same computed by the theorem's bound *)
Example C76_case_mul : run_m (n := 2) (d_mul D2 (im (sg := true) (w := 32) (n := 2) A) (im (n := 2) B))
  = Ok [| [| 2000000003; 499910 |]; [| 120000; 600035 |] |].
Proof. vm_compute. reflexivity. Qed.
Example C76_case_bound : exists C, run_m (n := 2) (d_mul D2 (im (sg := true) (w := 32) (n := 2) A) (im (n := 2) B)) = Ok C.
Proof.
  destruct (c76_debug_mul_bound true 32 D2 A B) as (C & E & _); [lia| | |exists C; exact E].
  - intros i j Hi Hj. cbn [dimn] in *. assert (Hi' : i = 0%nat \/ i = 1%nat) by lia. assert (Hj' : j = 0%nat \/ j = 1%nat) by lia.
    destruct Hi' as [-> | ->], Hj' as [-> | ->]; unfold fits, lo, hi; vm_compute; intuition discriminate.
  - intros i j Hi Hj. cbn [dimn] in *. assert (Hi' : i = 0%nat \/ i = 1%nat) by lia. assert (Hj' : j = 0%nat \/ j = 1%nat) by lia.
    destruct Hi' as [-> | ->], Hj' as [-> | ->]; vm_compute; discriminate.
Qed.
(** the square overflows: panic in debug, wrapped in release *)
Example C76_case_panic : run_m (n := 2) (d_mul D2 (im (sg := true) (w := 32) (n := 2) A) (im (n := 2) A)) = Panic.
Proof. vm_compute. reflexivity. Qed.
Example C76_case_wrap (H : 0 < 2 ^ 32) :
  rd true 32 (mfun (nT := W_Num 32 H) (d_mul (nT := W_Num 32 H) D2 (wm 32 H (n := 2) A) (wm 32 H (n := 2) A)) 0 0) = 1410065387.
Proof. refine (eq_trans (c76_release_mul true 32 H D2 A A 0 0 _ _) _); [cbn; lia|cbn; lia|vm_compute; reflexivity]. Qed.

(** in a debug build the order of the factors of a product of three decides
    whether it panics *)
Example C76_case_assoc :
  let X := im (sg := true) (w := 8) (n := 2) [| [| 100; 0 |]; [| 0; 1 |] |] in
  let Y := im (sg := true) (w := 8) (n := 2) [| [| 2; 0 |]; [| 0; 1 |] |] in
  let Z0 := im (sg := true) (w := 8) (n := 2) [| [| 0; 0 |]; [| 0; 1 |] |] in
  run_m (n := 2) (d_mul D2 (d_mul D2 X Y) Z0) = Panic
  /\ run_m (n := 2) (d_mul D2 X (d_mul D2 Y Z0)) = Ok [| [| 0; 0 |]; [| 0; 1 |] |].
Proof. split; vm_compute; reflexivity. Qed.

(** dividing and multiplying back loses the remainder *)
Example C76_case_div : run_m (n := 2) (d_div D2 (im (sg := true) (w := 32) (n := 2) [| [| 7; -7 |]; [| 1; -128 |] |]) (Some 2))
  = Ok [| [| 3; -3 |]; [| 0; -64 |] |]
  /\ run_m (n := 2) (d_div D2 (im (sg := true) (w := 8) (n := 2) [| [| 7; -7 |]; [| 1; -128 |] |]) (Some (-1))) = Panic
  /\ run_m (n := 2) (d_div D2 (im (sg := true) (w := 8) (n := 2) [| [| 7; -7 |]; [| 1; -12 |] |]) (Some 0)) = Panic.
Proof. repeat split; vm_compute; reflexivity. Qed.

Example C76_case_quat : run_q (q_mul (iq (w := 16) (q_new_from 1 2 3 4)) (iq (q_new_from 50 60 70 80) : Quaternion (chk true 16)))
  = Ok (q_new_from (-600) 120 300 240).
Proof.
  rewrite (c76_debug_quat_bound 16 ltac:(lia) _ _ 4 80); [reflexivity|lia|lia| | |vm_compute; discriminate];
    unfold qbound; cbn; lia.
Qed.
Example C76_case_quat_panic :
  run_q (q_mul (iq (w := 8) (q_new_from 1 2 3 4)) (iq (q_new_from 50 60 70 80) : Quaternion (chk true 8))) = Panic.
Proof. vm_compute. reflexivity. Qed.
End Cases.

Print Assumptions c76_debug_add_iff.
Print Assumptions c76_debug_sub_iff.
Print Assumptions c76_debug_scale_iff.
Print Assumptions c76_debug_neg_iff.
Print Assumptions c76_div_iff.
Print Assumptions c76_div_scale.
Print Assumptions c76_debug_dot_iff.
Print Assumptions c76_debug_mul_v_iff.
Print Assumptions c76_debug_mul_iff.
Print Assumptions c76_debug_mul_bound.
Print Assumptions c76_debug_quat_exact.
Print Assumptions c76_debug_quat_bound.
Print Assumptions c76_debug_dual_exact.
Print Assumptions c76_debug_dual_bound.
Print Assumptions c76_debug_rotate.
Print Assumptions c76_release_mul.
Print Assumptions c76_release_mul_v.
Print Assumptions c76_release_dot.
Print Assumptions c76_release_linear.
Print Assumptions c76_release_quat.
Print Assumptions c76_release_dual.
Print Assumptions c76_debug_release.
Print Assumptions c76_release_ring.
