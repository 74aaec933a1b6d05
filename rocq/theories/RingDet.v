(** * RingDet: finite sums and determinants over a commutative ring

    Specification vocabulary ([sumn], [delta], [ldet]) and its theory, for
    matrices given as functions [nat -> nat -> T]. Independent of the model of
    the crate. *)

From Coq Require Import Ring Arith Lia Bool.
From Verif Require Import Scalar.
Open Scope sc_scope.

(** The laws a commutative ring satisfies, for the operations of the classes. *)
Definition RingLaws (T : Type) {nT : Num T} {sT : Signed T} : Prop :=
  ring_theory zero one add mul sub neg (@eq T).

Section Spec.
Context {T : Type} {nT : Num T} {sT : Signed T}.

(** [f 0 + f 1 + ... + f (n-1)] *)
Fixpoint sumn (n : nat) (f : nat -> T) : T :=
  match n with O => zero | S k => sumn k f + f k end.

(** [f 0 * f 1 * ... * f (n-1)] *)
Fixpoint prodn (n : nat) (f : nat -> T) : T :=
  match n with O => one | S k => prodn k f * f k end.

(** [(-1)^n] *)
Fixpoint sgn (n : nat) : T := match n with O => one | S k => - sgn k end.

(** Kronecker delta: the entries of the identity matrix. *)
Definition delta (i j : nat) : T := if Nat.eqb i j then one else zero.

(** Index map that leaves out [k]. *)
Definition skip (k i : nat) : nat := if Nat.ltb i k then i else S i.

(** Deletion of row [r] and column [c]. *)
Definition minor (r c : nat) (M : nat -> nat -> T) : nat -> nat -> T :=
  fun i j => M (skip r i) (skip c j).

(** The determinant of the leading [n] x [n] block, by Laplace expansion along
    the first row. *)
Fixpoint ldet (n : nat) (M : nat -> nat -> T) : T :=
  match n with
  | O => one
  | S k => sumn (S k) (fun j => sgn j * M 0 j * ldet k (minor 0 j M))
  end.

(** Product of [n] x [n] matrices. *)
Definition mmul (n : nat) (A B : nat -> nat -> T) : nat -> nat -> T :=
  fun i j => sumn n (fun k => A i k * B k j).

Definition mtrans (A : nat -> nat -> T) : nat -> nat -> T := fun i j => A j i.

(** Entry (i, j) of the cofactor matrix. *)
Definition cofactor (n : nat) (M : nat -> nat -> T) (i j : nat) : T :=
  sgn (i + j) * ldet (n - 1) (minor i j M).

(** Row [r] replaced by [u]. *)
Definition upd_row (M : nat -> nat -> T) (r : nat) (u : nat -> T) : nat -> nat -> T :=
  fun i j => if Nat.eqb i r then u j else M i j.

(** Rows [r] and [s] exchanged. *)
Definition swap_row (r s : nat) (M : nat -> nat -> T) : nat -> nat -> T :=
  fun i j => if Nat.eqb i r then M s j else if Nat.eqb i s then M r j else M i j.

End Spec.

Section Theory.
Context {T : Type} {nT : Num T} {sT : Signed T}.
Variable RT : RingLaws T.
Let RT' : ring_theory zero one add mul sub neg (@eq T) := RT.
Add Ring TheRing : RT'.

(** ** Sums *)

Lemma sumn_ext n (f g : nat -> T) :
  (forall i, i < n -> f i = g i) -> sumn n f = sumn n g.
Proof.
  induction n as [|n IH]; intros H; cbn; [reflexivity|].
  rewrite IH, (H n); auto.
Qed.

Lemma sumn_zero n (f : nat -> T) : (forall i, i < n -> f i = zero) -> sumn n f = zero.
Proof.
  induction n as [|n IH]; intros H; cbn; [reflexivity|].
  rewrite IH, (H n); auto. ring.
Qed.

Lemma sumn_add n (f g : nat -> T) : sumn n (fun i => f i + g i) = sumn n f + sumn n g.
Proof. induction n as [|n IH]; cbn; [ring|rewrite IH; ring]. Qed.

Lemma sumn_sub n (f g : nat -> T) : sumn n (fun i => f i - g i) = sumn n f - sumn n g.
Proof. induction n as [|n IH]; cbn; [ring|rewrite IH; ring]. Qed.

Lemma sumn_neg n (f : nat -> T) : sumn n (fun i => - f i) = - sumn n f.
Proof. induction n as [|n IH]; cbn; [ring|rewrite IH; ring]. Qed.

Lemma sumn_scal n c (f : nat -> T) : sumn n (fun i => c * f i) = c * sumn n f.
Proof. induction n as [|n IH]; cbn; [ring|rewrite IH; ring]. Qed.

Lemma sumn_scal_r n c (f : nat -> T) : sumn n (fun i => f i * c) = sumn n f * c.
Proof. induction n as [|n IH]; cbn; [ring|rewrite IH; ring]. Qed.

Lemma sumn_swap n m (f : nat -> nat -> T) :
  sumn n (fun i => sumn m (f i)) = sumn m (fun j => sumn n (fun i => f i j)).
Proof.
  induction n as [|n IH]; cbn.
  - symmetry. apply sumn_zero. reflexivity.
  - rewrite IH. rewrite <- sumn_add. reflexivity.
Qed.

Lemma sumn_split n k (f : nat -> T) :
  sumn (k + n) f = sumn k f + sumn n (fun i => f (k + i)%nat).
Proof.
  induction n as [|n IH].
  - rewrite Nat.add_0_r. cbn. ring.
  - rewrite Nat.add_succ_r. cbn. rewrite IH. ring.
Qed.

Lemma sumn_S_l n (f : nat -> T) : sumn (S n) f = f 0%nat + sumn n (fun i => f (S i)).
Proof.
  change (S n) with (1 + n)%nat. rewrite sumn_split. cbn. ring.
Qed.

(** only index [k] contributes *)
Lemma sumn_single n k (f : nat -> T) :
  k < n -> (forall i, i < n -> i <> k -> f i = zero) -> sumn n f = f k.
Proof.
  induction n as [|n IH]; intros Hk H; [lia|]. cbn.
  destruct (Nat.eq_dec k n) as [->|Hne].
  - rewrite sumn_zero; [ring|]. intros i Hi. apply H; lia.
  - rewrite IH; [|lia|intros i Hi Hik; apply H; lia].
    rewrite (H n) by lia. ring.
Qed.

(** only indices [k] and [k+1] contribute *)
Lemma sumn_pair n k (f : nat -> T) :
  S k < n -> (forall i, i < n -> i <> k -> i <> S k -> f i = zero) ->
  sumn n f = f k + f (S k).
Proof.
  induction n as [|n IH]; intros Hk H; [lia|]. cbn.
  destruct (Nat.eq_dec (S k) n) as [<-|Hne].
  - rewrite (sumn_single (S k) k); [ring|lia|]. intros i Hi Hik. apply H; lia.
  - rewrite IH; [|lia|intros i Hi Hik Hik'; apply H; lia].
    rewrite (H n) by lia. ring.
Qed.

Lemma delta_refl i : delta i i = one.
Proof. unfold delta. now rewrite Nat.eqb_refl. Qed.

Lemma delta_neq i j : i <> j -> delta i j = zero.
Proof. intros H. unfold delta. apply Nat.eqb_neq in H. now rewrite H. Qed.

Lemma sumn_delta_l n k (f : nat -> T) : k < n -> sumn n (fun i => delta k i * f i) = f k.
Proof.
  intros Hk. rewrite (sumn_single n k); auto.
  - rewrite delta_refl. ring.
  - intros i _ Hi. rewrite delta_neq by auto. ring.
Qed.

Lemma sumn_delta_r n k (f : nat -> T) : k < n -> sumn n (fun i => f i * delta i k) = f k.
Proof.
  intros Hk. rewrite (sumn_single n k); auto.
  - rewrite delta_refl. ring.
  - intros i _ Hi. rewrite delta_neq by auto. ring.
Qed.

Lemma prodn_ext n (f g : nat -> T) :
  (forall i, i < n -> f i = g i) -> prodn n f = prodn n g.
Proof.
  induction n as [|n IH]; intros H; cbn; [reflexivity|].
  rewrite IH, (H n); auto.
Qed.

Lemma prodn_S_l n (f : nat -> T) : prodn (S n) f = f 0%nat * prodn n (fun i => f (S i)).
Proof.
  revert f. induction n as [|n IH]; intros f; [cbn; ring|].
  change (prodn (S (S n)) f) with (prodn (S n) f * f (S n)).
  rewrite IH. cbn. ring.
Qed.

Lemma sgn_S n : sgn (S n) = - sgn n.
Proof. reflexivity. Qed.

Lemma sgn_sq n : sgn n * sgn n = one.
Proof. induction n; cbn; [ring|]. rewrite <- IHn. ring. Qed.

Lemma sgn_add n m : sgn (n + m) = sgn n * sgn m.
Proof. induction n; cbn; [ring|]. rewrite IHn. ring. Qed.

(** ** Index maps *)

Lemma skip_lt k i n : i < n -> skip k i < S n.
Proof. unfold skip. destruct (Nat.ltb_spec i k); lia. Qed.

Lemma skip_neq k i : skip k i <> k.
Proof. unfold skip. destruct (Nat.ltb_spec i k); lia. Qed.

Lemma skip_inj k i j : skip k i = skip k j -> i = j.
Proof. unfold skip. destruct (Nat.ltb_spec i k), (Nat.ltb_spec j k); lia. Qed.

Lemma skip_0 i : skip 0 i = S i.
Proof. reflexivity. Qed.

(** ** The determinant as a function of the columns *)

Lemma ldet_ext n (M N : nat -> nat -> T) :
  (forall i j, i < n -> j < n -> M i j = N i j) -> ldet n M = ldet n N.
Proof.
  revert M N. induction n as [|n IH]; intros M N H; [reflexivity|].
  cbn [ldet]. apply sumn_ext. intros j Hj.
  rewrite (H 0%nat j) by lia. f_equal. apply IH. intros a b Ha Hb.
  unfold minor. apply H; apply skip_lt; lia.
Qed.

(** column [c] replaced by [u] *)
Definition upd_col (M : nat -> nat -> T) (c : nat) (u : nat -> T) : nat -> nat -> T :=
  fun i j => if Nat.eqb j c then u i else M i j.

Lemma minor_upd_col_same M c u : forall i j, minor 0 c (upd_col M c u) i j = minor 0 c M i j.
Proof.
  intros i j. unfold minor, upd_col.
  destruct (Nat.eqb_spec (skip c j) c) as [E|E]; [|reflexivity].
  exfalso. exact (skip_neq _ _ E).
Qed.

(** position of column [c] in the minor without column [j] *)
Definition unskip (j c : nat) : nat := if Nat.ltb c j then c else Nat.pred c.

Lemma minor_upd_col_other M j c u : c <> j -> forall a b,
  minor 0 j (upd_col M c u) a b
  = upd_col (minor 0 j M) (unskip j c) (fun i => u (S i)) a b.
Proof.
  intros Hc a b. unfold minor. rewrite skip_0. unfold upd_col, unskip, skip.
  destruct (Nat.ltb_spec b j), (Nat.ltb_spec c j);
  repeat match goal with |- context [Nat.eqb ?x ?y] => destruct (Nat.eqb_spec x y) end;
  try reflexivity; lia.
Qed.

Lemma unskip_lt j c n : c <> j -> c < S n -> j < S n -> unskip j c < n.
Proof. unfold unskip. destruct (Nat.ltb_spec c j); lia. Qed.

Lemma ldet_col_lin n : forall M c a b u v, c < n ->
  ldet n (upd_col M c (fun i => a * u i + b * v i))
  = a * ldet n (upd_col M c u) + b * ldet n (upd_col M c v).
Proof.
  induction n as [|n IH]; intros M c a b u v Hc; [lia|].
  cbn [ldet]. rewrite <- !sumn_scal, <- sumn_add. apply sumn_ext. intros j Hj.
  destruct (Nat.eq_dec j c) as [->|Hjc].
  - assert (E : forall w, ldet n (minor 0 c (upd_col M c w)) = ldet n (minor 0 c M))
      by (intros w; apply ldet_ext; intros; apply minor_upd_col_same).
    rewrite !E.
    unfold upd_col; rewrite Nat.eqb_refl. ring.
  - assert (E : forall w, ldet n (minor 0 j (upd_col M c w))
        = ldet n (upd_col (minor 0 j M) (unskip j c) (fun i => w (S i))))
      by (intros w; apply ldet_ext; intros; apply minor_upd_col_other; auto).
    rewrite !E.
    rewrite (IH (minor 0 j M) (unskip j c) a b (fun i => u (S i)) (fun i => v (S i)))
      by (apply unskip_lt; lia).
    assert (E0 : forall w, upd_col M c w 0%nat j = M 0%nat j)
      by (intros w; unfold upd_col; apply Nat.eqb_neq in Hjc; now rewrite Hjc).
    rewrite !E0. ring.
Qed.

Lemma ldet_col_alt n : forall M c, S c < n ->
  (forall i, i < n -> M i c = M i (S c)) -> ldet n M = zero.
Proof.
  induction n as [|n IH]; intros M c Hc H; [lia|].
  cbn [ldet]. rewrite (sumn_pair (S n) c); [|lia|].
  - rewrite (H 0%nat) by lia.
    rewrite (ldet_ext n (minor 0 c M) (minor 0 (S c) M)); [cbn [sgn]; ring|].
    intros i j Hi Hj. unfold minor.
    destruct (Nat.eq_dec j c) as [->|Hjc].
    + replace (skip c c) with (S c) by (unfold skip; now rewrite Nat.ltb_irrefl).
      replace (skip (S c) c) with c
        by (unfold skip; destruct (Nat.ltb_spec c (S c)); lia).
      symmetry. apply H. apply skip_lt. lia.
    + f_equal. unfold skip. destruct (Nat.ltb_spec j c), (Nat.ltb_spec j (S c)); lia.
  - intros j Hj Hj1 Hj2.
    rewrite (IH (minor 0 j M) (unskip j c)); [ring| |].
    + unfold unskip. destruct (Nat.ltb_spec c j); lia.
    + intros i Hi. unfold minor.
      assert (E1 : skip j (unskip j c) = c)
        by (unfold skip, unskip; destruct (Nat.ltb_spec c j);
            [destruct (Nat.ltb_spec c j)|destruct (Nat.ltb_spec (Nat.pred c) j)]; lia).
      assert (E2 : skip j (S (unskip j c)) = S c)
        by (unfold skip, unskip; destruct (Nat.ltb_spec c j);
            [destruct (Nat.ltb_spec (S c) j)|destruct (Nat.ltb_spec (S (Nat.pred c)) j)]; lia).
      rewrite E1, E2. apply H. apply skip_lt. lia.
Qed.

(** ** Alternating multilinear forms of the rows *)

Record AltForm (n m : nat) (f : (nat -> nat -> T) -> T) : Prop := {
  af_ext : forall M N, (forall i j, i < n -> j < m -> M i j = N i j) -> f M = f N;
  af_lin : forall M r a b u v, r < n ->
    f (upd_row M r (fun j => a * u j + b * v j))
    = a * f (upd_row M r u) + b * f (upd_row M r v);
  af_alt : forall M r, S r < n -> (forall j, j < m -> M r j = M (S r) j) -> f M = zero
}.

Section Alt.
Variables (n m : nat) (f : (nat -> nat -> T) -> T).
Hypothesis A : AltForm n m f.

Lemma upd_row_same (M : nat -> nat -> T) r u j : upd_row M r u r j = u j.
Proof. unfold upd_row. now rewrite Nat.eqb_refl. Qed.

Lemma upd_row_other (M : nat -> nat -> T) r u i j : i <> r -> upd_row M r u i j = M i j.
Proof. intros H. unfold upd_row. apply Nat.eqb_neq in H. now rewrite H. Qed.

Lemma af_upd_ext M N r u v :
  (forall i j, i < n -> j < m -> i <> r -> M i j = N i j) ->
  (forall j, j < m -> u j = v j) ->
  f (upd_row M r u) = f (upd_row N r v).
Proof.
  intros H1 H2. apply (af_ext n m f A). intros i j Hi Hj.
  unfold upd_row. destruct (Nat.eqb_spec i r); auto.
Qed.

Lemma af_add M r u v : r < n ->
  f (upd_row M r (fun j => u j + v j)) = f (upd_row M r u) + f (upd_row M r v).
Proof.
  intros Hr. transitivity (f (upd_row M r (fun j => one * u j + one * v j))).
  - apply af_upd_ext; [reflexivity|]. intros; ring.
  - rewrite (af_lin n m f A) by auto. ring.
Qed.

Lemma af_scal M r c u : r < n ->
  f (upd_row M r (fun j => c * u j)) = c * f (upd_row M r u).
Proof.
  intros Hr. transitivity (f (upd_row M r (fun j => c * u j + zero * u j))).
  - apply af_upd_ext; [reflexivity|]. intros; ring.
  - rewrite (af_lin n m f A) by auto. ring.
Qed.

Lemma af_sum M r k (u : nat -> nat -> T) (c : nat -> T) : r < n ->
  f (upd_row M r (fun j => sumn k (fun l => c l * u l j)))
  = sumn k (fun l => c l * f (upd_row M r (u l))).
Proof.
  intros Hr. induction k as [|k IH]; cbn.
  - transitivity (f (upd_row M r (fun j => zero * zero))).
    + apply af_upd_ext; [reflexivity|]. intros; ring.
    + rewrite (af_scal M r zero (fun _ => zero)) by auto. ring.
  - rewrite <- IH. rewrite <- af_scal by auto. rewrite <- af_add by auto. reflexivity.
Qed.

(** exchanging two adjacent rows changes the sign *)
Lemma af_swap_adj M r : S r < n -> f (swap_row r (S r) M) = - f M.
Proof.
  intros Hr.
  pose (P u v := upd_row (upd_row M r u) (S r) v).
  assert (Pz : forall u, f (P u u) = zero).
  { intros u. apply (af_alt n m f A _ r); auto. intros j Hj. unfold P.
    rewrite upd_row_same, upd_row_other, upd_row_same by lia. reflexivity. }
  assert (Pr : forall u v w, f (P (fun j => u j + v j) w) = f (P u w) + f (P v w)).
  { intros u v w. unfold P.
    assert (E : forall x, f (upd_row (upd_row M r x) (S r) w) = f (upd_row (upd_row M (S r) w) r x)).
    { intros x. apply (af_ext n m f A). intros i j _ _. unfold upd_row.
      destruct (Nat.eqb_spec i r), (Nat.eqb_spec i (S r)); try reflexivity; lia. }
    rewrite !E. rewrite <- af_add by lia. reflexivity. }
  assert (Pl : forall u v w, f (P w (fun j => u j + v j)) = f (P w u) + f (P w v)).
  { intros u v w. unfold P. apply af_add. lia. }
  assert (E1 : f M = f (P (M r) (M (S r)))).
  { apply (af_ext n m f A). intros i j _ _. unfold P, upd_row.
    destruct (Nat.eqb_spec i (S r)) as [->|]; [reflexivity|].
    destruct (Nat.eqb_spec i r) as [->|]; reflexivity. }
  assert (E2 : f (swap_row r (S r) M) = f (P (M (S r)) (M r))).
  { apply (af_ext n m f A). intros i j _ _. unfold P, upd_row, swap_row.
    destruct (Nat.eqb_spec i r) as [->|]; [|reflexivity].
    destruct (Nat.eqb_spec r (S r)); [lia|]. reflexivity. }
  pose proof (Pz (fun j => M r j + M (S r) j)) as Z.
  rewrite Pr, !Pl in Z. rewrite !Pz in Z. rewrite E1, E2.
  transitivity (f (P (M (S r)) (M r)) + f (P (M r) (M (S r))) - f (P (M r) (M (S r)))); [ring|].
  transitivity (zero - f (P (M r) (M (S r)))); [|ring].
  f_equal. rewrite <- Z. unfold P. ring.
Qed.

(** two equal rows anywhere *)
Lemma af_eq_rows d : forall M r s, s = (r + S d)%nat -> s < n ->
  (forall j, j < m -> M r j = M s j) -> f M = zero.
Proof.
  induction d as [|d IH]; intros M r s Hs Hn H.
  - apply (af_alt n m f A _ r); [lia|]. intros j Hj. rewrite H by auto. f_equal. lia.
  - assert (Z : f (swap_row r (S r) M) = zero).
    { apply (IH _ (S r) s); [lia|lia|]. intros j Hj. unfold swap_row.
      destruct (Nat.eqb_spec (S r) r), (Nat.eqb_spec (S r) (S r)),
        (Nat.eqb_spec s r), (Nat.eqb_spec s (S r)); try lia; auto. }
    rewrite af_swap_adj in Z by lia.
    transitivity (- - f M); [ring|]. rewrite Z. ring.
Qed.

Lemma af_equal_rows M r s : r < n -> s < n -> r <> s ->
  (forall j, j < m -> M r j = M s j) -> f M = zero.
Proof.
  intros Hr Hs Hrs H. destruct (Nat.lt_ge_cases r s).
  - apply (af_eq_rows (s - r - 1) M r s); auto; lia.
  - apply (af_eq_rows (r - s - 1) M s r); auto; try lia. intros j Hj. symmetry; auto.
Qed.

(** adding a multiple of another row *)
Lemma af_row_op M r s c : r < n -> s < n -> r <> s ->
  f (upd_row M r (fun j => M r j + c * M s j)) = f M.
Proof.
  intros Hr Hs Hrs. rewrite af_add, af_scal by auto.
  rewrite (af_equal_rows (upd_row M r (M s)) r s); auto.
  - rewrite (af_ext n m f A (upd_row M r (M r)) M); [ring|].
    intros i j _ _. unfold upd_row. destruct (Nat.eqb_spec i r); subst; reflexivity.
  - intros j _. rewrite upd_row_same, upd_row_other by auto. reflexivity.
Qed.

(** exchanging any two rows changes the sign *)
Lemma af_swap M r s : r < n -> s < n -> r <> s -> f (swap_row r s M) = - f M.
Proof.
  intros Hr Hs Hrs.
  pose (P u v := upd_row (upd_row M r u) s v).
  assert (Pz : forall u, f (P u u) = zero).
  { intros u. apply (af_equal_rows _ r s); auto. intros j Hj. unfold P.
    rewrite upd_row_same, upd_row_other, upd_row_same by auto. reflexivity. }
  assert (Pr : forall u v w, f (P (fun j => u j + v j) w) = f (P u w) + f (P v w)).
  { intros u v w. unfold P.
    assert (E : forall x, f (upd_row (upd_row M r x) s w) = f (upd_row (upd_row M s w) r x)).
    { intros x. apply (af_ext n m f A). intros i j _ _. unfold upd_row.
      destruct (Nat.eqb_spec i r), (Nat.eqb_spec i s); try reflexivity; lia. }
    rewrite !E. rewrite <- af_add by lia. reflexivity. }
  assert (Pl : forall u v w, f (P w (fun j => u j + v j)) = f (P w u) + f (P w v)).
  { intros u v w. unfold P. apply af_add. lia. }
  assert (E1 : f M = f (P (M r) (M s))).
  { apply (af_ext n m f A). intros i j _ _. unfold P, upd_row.
    destruct (Nat.eqb_spec i s) as [->|]; [reflexivity|].
    destruct (Nat.eqb_spec i r) as [->|]; reflexivity. }
  assert (E2 : f (swap_row r s M) = f (P (M s) (M r))).
  { apply (af_ext n m f A). intros i j _ _. unfold P, upd_row, swap_row.
    destruct (Nat.eqb_spec i r) as [->|]; [|reflexivity].
    destruct (Nat.eqb_spec r s); [lia|]. reflexivity. }
  pose proof (Pz (fun j => M r j + M s j)) as Z.
  rewrite Pr, !Pl in Z. rewrite !Pz in Z. rewrite E1, E2.
  transitivity (f (P (M s) (M r)) + f (P (M r) (M s)) - f (P (M r) (M s))); [ring|].
  transitivity (zero - f (P (M r) (M s))); [|ring].
  f_equal. rewrite <- Z. unfold P. ring.
Qed.

(** Row [k] moved to the top, rows [0..k-1] shifted down. *)
Definition to_top (k : nat) (M : nat -> nat -> T) : nat -> nat -> T :=
  fun i j => if Nat.eqb i 0 then M k j else M (skip k (i - 1)) j.

Lemma af_to_top k : forall M, k < n -> f (to_top k M) = sgn k * f M.
Proof.
  induction k as [|k IH]; intros M Hk.
  - cbn. transitivity (f M); [|ring]. apply (af_ext n m f A). intros i j _ _.
    unfold to_top. destruct i; cbn; [reflexivity|]. unfold skip; cbn. f_equal. lia.
  - cbn [sgn]. transitivity (f (to_top k (swap_row k (S k) M))).
    + apply (af_ext n m f A). intros i j _ _. unfold to_top, swap_row, skip.
      destruct i as [|i]; cbn [Nat.eqb].
      * rewrite Nat.eqb_refl. reflexivity.
      * rewrite Nat.sub_succ, Nat.sub_0_r.
        destruct (Nat.ltb_spec i (S k)), (Nat.ltb_spec i k);
        repeat match goal with |- context [Nat.eqb ?x ?y] => destruct (Nat.eqb_spec x y) end;
        try reflexivity; try lia; f_equal; lia.
    + rewrite IH, af_swap_adj by lia. ring.
Qed.

End Alt.

(** ** The determinant as a function of the rows *)

Lemma ldet_id n : ldet n delta = one.
Proof.
  induction n as [|n IH]; [reflexivity|]. cbn [ldet].
  rewrite (sumn_single (S n) 0); [|lia|].
  - rewrite delta_refl. rewrite (ldet_ext n _ delta); [rewrite IH; cbn; ring|].
    intros i j _ _. unfold minor, skip, delta. cbn. reflexivity.
  - intros i Hi Hi0. rewrite (delta_neq 0 i) by auto. ring.
Qed.

(** inserting a zero column at position [j] *)
Definition insert_zero (j : nat) (N : nat -> nat -> T) : nat -> nat -> T :=
  fun a b => if Nat.eqb b j then zero else N a (unskip j b).

(** [e_j] on top of [N] with a zero column inserted at [j] *)
Definition bordered (j : nat) (N : nat -> nat -> T) : nat -> nat -> T :=
  fun a b => match a with O => delta j b | S a' => insert_zero j N a' b end.

Lemma altform_bordered n j f : AltForm (S n) (S n) f -> j < S n ->
  AltForm n n (fun N => f (bordered j N)).
Proof.
  intros A Hj. split.
  - intros M N H. apply (af_ext _ _ _ A). intros a b Ha Hb. destruct a as [|a]; cbn; [reflexivity|].
    unfold insert_zero. destruct (Nat.eqb_spec b j); [reflexivity|].
    apply H; [lia|]. apply unskip_lt; auto.
  - intros M r a b u v Hr.
    assert (E : forall w, f (bordered j (upd_row M r w))
       = f (upd_row (bordered j M) (S r) (fun c => if Nat.eqb c j then zero else w (unskip j c)))).
    { intros w. apply (af_ext _ _ _ A). intros x y _ _. unfold upd_row.
      destruct x as [|x]; cbn; [reflexivity|]. unfold insert_zero.
      destruct (Nat.eqb_spec y j), (Nat.eqb_spec x r); reflexivity. }
    rewrite !E. rewrite <- (af_lin _ _ _ A) by lia.
    apply (af_ext _ _ _ A). intros x y _ _. unfold upd_row.
    destruct (Nat.eqb_spec x (S r)); [|reflexivity].
    destruct (Nat.eqb_spec y j); [ring|reflexivity].
  - intros M r Hr H. apply (af_alt _ _ _ A _ (S r)); [lia|].
    intros c Hc. cbn. unfold insert_zero. destruct (Nat.eqb_spec c j); [reflexivity|].
    apply H. apply unskip_lt; auto.
Qed.

(** clearing column [j] of rows [1..k] when the first row is [e_j] *)
Lemma clear_column n j f M k : AltForm (S n) (S n) f -> j < S n -> k <= n ->
  (forall b, M 0%nat b = delta j b) ->
  f M = f (fun a b => if Nat.eqb a 0 then M a b
                      else if Nat.leb a k then (if Nat.eqb b j then zero else M a b) else M a b).
Proof.
  intros A Hj Hk H0. induction k as [|k IH].
  - apply (af_ext _ _ _ A). intros a b _ _. destruct a; reflexivity.
  - rewrite IH by lia.
    set (N := fun a b => if Nat.eqb a 0 then M a b
      else if Nat.leb a k then (if Nat.eqb b j then zero else M a b) else M a b).
    rewrite <- (af_row_op (S n) (S n) f A N (S k) 0 (- M (S k) j)) by lia.
    apply (af_ext _ _ _ A). intros a b _ _. unfold upd_row, N.
    destruct (Nat.eqb_spec a (S k)) as [->|Hne].
    + cbn [Nat.eqb]. rewrite Nat.leb_refl.
      destruct (Nat.leb_spec (S k) k); [lia|]. rewrite H0.
      destruct (Nat.eqb_spec b j) as [->|Hb].
      * rewrite delta_refl. ring.
      * rewrite (delta_neq j b) by auto. ring.
    + destruct (Nat.eqb_spec a 0); [reflexivity|].
      destruct (Nat.leb_spec a k), (Nat.leb_spec a (S k)); try lia; reflexivity.
Qed.

(** Every alternating multilinear form is a multiple of the determinant. *)
Theorem altform_unique n : forall f, AltForm n n f -> forall M, f M = f delta * ldet n M.
Proof.
  induction n as [|n IH]; intros f A M.
  - cbn. rewrite (af_ext _ _ _ A M delta) by lia. ring.
  - cbn [ldet].
    (* expand the first row *)
    transitivity (f (upd_row M 0 (fun c => sumn (S n) (fun j => M 0%nat j * delta j c)))).
    { apply (af_ext _ _ _ A). intros a c _ Hc. unfold upd_row.
      destruct (Nat.eqb_spec a 0) as [->|]; [|reflexivity].
      rewrite sumn_delta_r by auto. reflexivity. }
    rewrite (af_sum _ _ _ A) by lia. rewrite <- sumn_scal.
    apply sumn_ext. intros j Hj.
    (* clear column j *)
    assert (E : f (upd_row M 0 (delta j)) = f (bordered j (minor 0 j M))).
    { rewrite (clear_column n j f _ n A Hj (le_n _)); [|intros; apply upd_row_same].
      apply (af_ext _ _ _ A). intros a b Ha Hb.
      destruct a as [|a]; cbn [Nat.eqb bordered].
      - apply upd_row_same.
      - destruct (Nat.leb_spec (S a) n); [|lia].
        rewrite upd_row_other by lia. unfold insert_zero, minor.
        destruct (Nat.eqb_spec b j) as [->|Hb']; [reflexivity|].
        f_equal. unfold skip, unskip. destruct (Nat.ltb_spec b j).
        + destruct (Nat.ltb_spec b j); lia.
        + destruct (Nat.ltb_spec (Nat.pred b) j); lia. }
    rewrite E.
    rewrite (IH _ (altform_bordered n j f A Hj) (minor 0 j M)).
    assert (E2 : f (bordered j delta) = sgn j * f delta).
    { rewrite <- (af_to_top _ _ _ A j delta Hj). apply (af_ext _ _ _ A).
      intros a b Ha Hb. unfold bordered, to_top, insert_zero.
      destruct a as [|a]; cbn [Nat.eqb]; [reflexivity|].
      rewrite Nat.sub_succ, Nat.sub_0_r.
      unfold delta, skip, unskip.
      destruct (Nat.eqb_spec b j) as [->|].
      - destruct (Nat.ltb_spec a j);
        match goal with |- _ = if Nat.eqb ?x ?y then _ else _ => destruct (Nat.eqb_spec x y) end;
        [lia|reflexivity|lia|reflexivity].
      - destruct (Nat.ltb_spec b j), (Nat.ltb_spec a j);
        match goal with |- (if Nat.eqb ?x ?y then _ else _) = if Nat.eqb ?z ?t then _ else _ =>
          destruct (Nat.eqb_spec x y), (Nat.eqb_spec z t) end; try reflexivity; lia. }
    rewrite E2. ring.
Qed.

(** The transposed determinant is an alternating form of the rows. *)
Lemma altform_ldet_trans n : AltForm n n (fun M => ldet n (mtrans M)).
Proof.
  split.
  - intros M N H. apply ldet_ext. intros; unfold mtrans; apply H; auto.
  - intros M r a b u v Hr.
    assert (E : forall w, ldet n (mtrans (upd_row M r w)) = ldet n (upd_col (mtrans M) r w))
      by reflexivity.
    rewrite !E. apply ldet_col_lin; auto.
  - intros M r Hr H. apply (ldet_col_alt n _ r); auto.
Qed.

Theorem ldet_trans n M : ldet n (mtrans M) = ldet n M.
Proof.
  rewrite (altform_unique n _ (altform_ldet_trans n) M).
  rewrite (ldet_ext n (mtrans delta) delta).
  - rewrite ldet_id. ring.
  - intros i j _ _. unfold mtrans, delta. now rewrite Nat.eqb_sym.
Qed.

Theorem altform_ldet n : AltForm n n (ldet n).
Proof.
  pose proof (altform_ldet_trans n) as A. split.
  - apply ldet_ext.
  - intros M r a b u v Hr. pose proof (af_lin _ _ _ A M r a b u v Hr) as H.
    cbn in H. rewrite !ldet_trans in H. exact H.
  - intros M r Hr H. pose proof (af_alt _ _ _ A M r Hr H) as Z.
    cbn in Z. rewrite ldet_trans in Z. exact Z.
Qed.

Theorem ldet_swap_rows n M r s : r < n -> s < n -> r <> s ->
  ldet n (swap_row r s M) = - ldet n M.
Proof. apply (af_swap n n _ (altform_ldet n)). Qed.

Theorem ldet_equal_rows n M r s : r < n -> s < n -> r <> s ->
  (forall j, j < n -> M r j = M s j) -> ldet n M = zero.
Proof. apply (af_equal_rows n n _ (altform_ldet n)). Qed.

(** ** Multiplicativity *)

Lemma altform_mul n B : AltForm n n (fun M => ldet n (mmul n M B)).
Proof.
  pose proof (altform_ldet n) as A. split.
  - intros M N H. apply ldet_ext. intros i j Hi Hj. unfold mmul.
    apply sumn_ext. intros k Hk. rewrite H by auto. reflexivity.
  - intros M r a b u v Hr.
    assert (E : forall w, ldet n (mmul n (upd_row M r w) B)
       = ldet n (upd_row (mmul n M B) r (fun j => sumn n (fun k => w k * B k j)))).
    { intros w. apply ldet_ext. intros i j _ _. unfold mmul, upd_row.
      destruct (Nat.eqb i r); reflexivity. }
    rewrite !E. rewrite <- (af_lin _ _ _ A) by auto.
    apply (af_upd_ext n n _ A); [reflexivity|]. intros j _.
    rewrite <- !sumn_scal, <- sumn_add. apply sumn_ext. intros k _. ring.
  - intros M r Hr H. apply (af_alt _ _ _ A _ r Hr). intros j Hj. unfold mmul.
    apply sumn_ext. intros k Hk. rewrite H by auto. reflexivity.
Qed.

Theorem ldet_mul n M N : ldet n (mmul n M N) = ldet n M * ldet n N.
Proof.
  rewrite (altform_unique n _ (altform_mul n N) M).
  rewrite (ldet_ext n (mmul n delta N) N); [ring|].
  intros i j Hi Hj. unfold mmul. now rewrite sumn_delta_l.
Qed.

Theorem ldet_scale n M c : ldet n (fun i j => c * M i j) = prodn n (fun _ => c) * ldet n M.
Proof.
  revert M. induction n as [|n IH]; intros M; [cbn; ring|].
  cbn [ldet]. rewrite <- sumn_scal. apply sumn_ext. intros j Hj.
  change (minor 0 j (fun i j => c * M i j)) with (fun a b => c * minor 0 j M a b).
  rewrite IH. cbn [prodn]. ring.
Qed.

(** ** Cofactors *)

(** expansion along any row *)
Theorem cofactor_row n M i : i < S n ->
  sumn (S n) (fun j => M i j * cofactor (S n) M i j) = ldet (S n) M.
Proof.
  intros Hi.
  transitivity (sgn i * ldet (S n) (to_top i M)).
  - cbn [ldet]. rewrite <- sumn_scal. apply sumn_ext. intros j Hj.
    unfold cofactor. rewrite Nat.sub_succ, Nat.sub_0_r.
    rewrite (ldet_ext n (minor 0 j (to_top i M)) (minor i j M)).
    + unfold to_top; cbn [Nat.eqb]. rewrite sgn_add. ring.
    + intros a b _ _. unfold minor, to_top. rewrite skip_0. cbn [Nat.eqb].
      rewrite Nat.sub_succ, Nat.sub_0_r. reflexivity.
  - rewrite (af_to_top _ _ _ (altform_ldet (S n)) i M Hi).
    transitivity (sgn i * sgn i * ldet (S n) M); [ring|]. rewrite sgn_sq. ring.
Qed.

(** expansion with the cofactors of another row *)
Theorem cofactor_row_alien n M i k : i < S n -> k < S n -> i <> k ->
  sumn (S n) (fun j => M i j * cofactor (S n) M k j) = zero.
Proof.
  intros Hi Hk Hik.
  rewrite <- (ldet_equal_rows (S n) (upd_row M k (M i)) i k); auto.
  - rewrite <- (cofactor_row n (upd_row M k (M i)) k Hk). apply sumn_ext. intros j Hj.
    rewrite upd_row_same. f_equal. unfold cofactor. f_equal.
    rewrite Nat.sub_succ, Nat.sub_0_r. apply ldet_ext. intros a b _ _. unfold minor.
    rewrite upd_row_other; [reflexivity|]. apply skip_neq.
  - intros j _. rewrite upd_row_same, upd_row_other by auto. reflexivity.
Qed.

Lemma cofactor_trans n M i j : cofactor (S n) (mtrans M) i j = cofactor (S n) M j i.
Proof.
  unfold cofactor. rewrite (Nat.add_comm i j). f_equal.
  rewrite Nat.sub_succ, Nat.sub_0_r. rewrite <- (ldet_trans n (minor j i M)). reflexivity.
Qed.

(** [M * adj M = det M * I] *)
Theorem mul_adj n M i k : i < S n -> k < S n ->
  sumn (S n) (fun j => M i j * cofactor (S n) M k j) = ldet (S n) M * delta i k.
Proof.
  intros Hi Hk. destruct (Nat.eq_dec i k) as [->|Hne].
  - rewrite cofactor_row by auto. rewrite delta_refl. ring.
  - rewrite cofactor_row_alien by auto. rewrite delta_neq by auto. ring.
Qed.

(** [adj M * M = det M * I] *)
Theorem adj_mul n M i k : i < S n -> k < S n ->
  sumn (S n) (fun j => cofactor (S n) M j i * M j k) = ldet (S n) M * delta i k.
Proof.
  intros Hi Hk. rewrite <- (ldet_trans (S n) M).
  transitivity (ldet (S n) (mtrans M) * delta k i).
  - rewrite <- (mul_adj n (mtrans M) k i Hk Hi). apply sumn_ext. intros j Hj.
    rewrite cofactor_trans. unfold mtrans. ring.
  - f_equal. unfold delta. now rewrite Nat.eqb_sym.
Qed.

(** ** Triangular matrices *)

Theorem ldet_lower n : forall M, (forall i j, i < n -> j < n -> i < j -> M i j = zero) ->
  ldet n M = prodn n (fun i => M i i).
Proof.
  induction n as [|n IH]; intros M H; [reflexivity|].
  rewrite prodn_S_l. cbn [ldet]. rewrite (sumn_single (S n) 0); [|lia|].
  - rewrite IH; [unfold minor, skip; cbn; ring|].
    intros i j Hi Hj Hij. unfold minor, skip. cbn. apply H; lia.
  - intros j Hj Hj0. rewrite H by lia. ring.
Qed.

Theorem ldet_upper n M : (forall i j, i < n -> j < n -> j < i -> M i j = zero) ->
  ldet n M = prodn n (fun i => M i i).
Proof.
  intros H. rewrite <- ldet_trans. rewrite ldet_lower; [reflexivity|].
  intros i j Hi Hj Hij. unfold mtrans. apply H; auto.
Qed.

(** ** Matrix products *)

Lemma mmul_ext n A B A' B' i j :
  (forall k, k < n -> A i k = A' i k) -> (forall k, k < n -> B k j = B' k j) ->
  mmul n A B i j = mmul n A' B' i j.
Proof.
  intros H1 H2. unfold mmul. apply sumn_ext. intros k Hk. rewrite H1, H2; auto.
Qed.

Lemma mmul_assoc n A B C i j :
  mmul n (mmul n A B) C i j = mmul n A (mmul n B C) i j.
Proof.
  unfold mmul.
  transitivity (sumn n (fun k => sumn n (fun l => A i l * B l k * C k j))).
  - apply sumn_ext. intros k _. rewrite <- sumn_scal_r. reflexivity.
  - rewrite sumn_swap. apply sumn_ext. intros l _. rewrite <- sumn_scal.
    apply sumn_ext. intros k _. ring.
Qed.

Lemma mmul_id_l n A i j : i < n -> mmul n delta A i j = A i j.
Proof. intros Hi. unfold mmul. now rewrite sumn_delta_l. Qed.

Lemma mmul_id_r n A i j : j < n -> mmul n A delta i j = A i j.
Proof. intros Hj. unfold mmul. now rewrite sumn_delta_r. Qed.

Lemma mtrans_mmul n A B i j : mtrans (mmul n A B) i j = mmul n (mtrans B) (mtrans A) i j.
Proof. unfold mtrans, mmul. apply sumn_ext. intros; ring. Qed.

(** Over a commutative ring a one-sided inverse is two-sided. *)
Theorem left_inverse_right n A B :
  (forall i j, i < S n -> j < S n -> mmul (S n) A B i j = delta i j) ->
  forall i j, i < S n -> j < S n -> mmul (S n) B A i j = delta i j.
Proof.
  intros H.
  set (m := S n) in *.
  assert (D : ldet m A * ldet m B = one).
  { rewrite <- ldet_mul. rewrite (ldet_ext m _ delta) by exact H. apply ldet_id. }
  pose (C := fun i j => ldet m B * cofactor m A j i).
  assert (CA : forall i j, i < m -> j < m -> mmul m C A i j = delta i j).
  { intros i j Hi Hj. unfold mmul, C.
    transitivity (ldet m B * sumn m (fun k => cofactor m A k i * A k j)).
    - rewrite <- sumn_scal. apply sumn_ext. intros; ring.
    - unfold m. rewrite adj_mul by auto. fold m.
      transitivity (ldet m A * ldet m B * delta i j); [ring|]. rewrite D. ring. }
  assert (CB : forall i j, i < m -> j < m -> C i j = B i j).
  { intros i j Hi Hj.
    transitivity (mmul m C (mmul m A B) i j).
    - transitivity (mmul m C delta i j).
      + now rewrite mmul_id_r.
      + apply mmul_ext; [reflexivity|]. intros k Hk. symmetry. apply H; auto.
    - rewrite <- mmul_assoc. transitivity (mmul m delta B i j).
      + apply mmul_ext; [|reflexivity]. intros k Hk. apply CA; auto.
      + now rewrite mmul_id_l. }
  intros i j Hi Hj. rewrite <- CA by auto.
  apply mmul_ext; [|reflexivity]. intros k Hk. symmetry. apply CB; auto.
Qed.

End Theory.
