(** * ProofsPrograms: C83, C84 (the QR iteration and the linear solver of examples/) *)

From Coq Require Import List Arith Lia Bool Reals Lra.
From Verif Require Import Base Scalar Vec Mat2 Mat3 Mat4 Mat5 Mat6 Slices MatLoops MatOps Programs
  RingDet Spec LoopFacts Entries DetEntries ProofsLoops InstR RFacts InvFacts ProofsRing ProofsInverse QRFacts ProofsQR.
Import ListNotations.
Local Open Scope R_scope.

(** ** Specification: characteristic polynomial and orthogonal similarity *)

(** [det (M - x I)]; the eigenvalues of [M] are its roots *)
Definition char_poly (n : nat) (M : nat -> nat -> R) (x : R) : R :=
  ldet n (fun i j => M i j - x * (if Nat.eqb i j then 1 else 0)).

(** [B] is [U^T A U] for some orthogonal [U] *)
Definition orth_similar (n : nat) (A B : nat -> nat -> R) : Prop :=
  exists U : nat -> nat -> R,
    (forall i j, (i < n)%nat -> (j < n)%nat -> sumn n (fun k => U k i * U k j) = if Nat.eqb i j then 1 else 0)
    /\ (forall i j, (i < n)%nat -> (j < n)%nat -> sumn n (fun k => U i k * U j k) = if Nat.eqb i j then 1 else 0)
    /\ (forall i j, (i < n)%nat -> (j < n)%nat ->
          B i j = sumn n (fun k => U k i * sumn n (fun l => A k l * U l j))).

(** ** Facts about the specification *)

Lemma delta_if i j : (if Nat.eqb i j then 1 else 0) = delta i j.
Proof. reflexivity. Qed.

Lemma char_poly_ext n A B x : (forall i j, (i < n)%nat -> (j < n)%nat -> A i j = B i j) -> char_poly n A x = char_poly n B x.
Proof. intros H. apply ldet_ext. intros i j Hi Hj. now rewrite H. Qed.

Lemma orth_similar_refl n A : orth_similar n A A.
Proof.
  exists delta. split; [ |split]; intros i j Hi Hj.
  - rewrite (sumn_ext n _ (fun k => delta i k * delta k j)).
    + apply (sumn_delta_l R_ring). exact Hi.
    + intros k Hk. unfold delta. rewrite (Nat.eqb_sym k i). reflexivity.
  - rewrite (sumn_ext n _ (fun k => delta i k * delta k j)).
    + apply (sumn_delta_l R_ring). exact Hi.
    + intros k Hk. unfold delta. rewrite (Nat.eqb_sym k j). reflexivity.
  - rewrite (sumn_ext n _ (fun k => delta i k * sumn n (fun l => A k l * delta l j))).
    + rewrite (sumn_delta_l R_ring n i (fun k => sumn n (fun l => A k l * delta l j))) by exact Hi.
      symmetry. apply (sumn_delta_r R_ring). exact Hj.
    + intros k Hk. unfold delta at 1. rewrite (Nat.eqb_sym k i). reflexivity.
Qed.

Lemma orth_similar_trans n A B C : orth_similar n A B -> orth_similar n B C -> orth_similar n A C.
Proof.
  intros (U & U1 & U2 & UB) (V & V1 & V2 & VC).
  assert (O : forall P Q : nat -> nat -> R,
    (forall i j, (i < n)%nat -> (j < n)%nat -> mmul n (mtrans P) P i j = delta i j) ->
    (forall i j, (i < n)%nat -> (j < n)%nat -> mmul n (mtrans Q) Q i j = delta i j) ->
    forall i j, (i < n)%nat -> (j < n)%nat -> mmul n (mtrans (mmul n P Q)) (mmul n P Q) i j = delta i j).
  { intros P Q HP HQ i j Hi Hj.
    rewrite (mmul_ext n _ _ (mmul n (mtrans Q) (mtrans P)) (mmul n P Q))
      by (intros; try reflexivity; apply (mtrans_mmul R_ring)).
    rewrite (mmul_assoc R_ring). rewrite <- HQ by assumption.
    apply mmul_ext; [reflexivity|intros k Hk].
    rewrite <- (mmul_assoc R_ring), <- (mmul_id_l R_ring n Q k j) by assumption.
    apply mmul_ext; [ |reflexivity]. intros l Hl. now apply HP. }
  exists (mmul n U V). split; [ |split].
  - exact (O U V U1 V1).
  - intros i j Hi Hj.
    pose proof (O (mtrans V) (mtrans U) V2 U2 i j Hi Hj) as E. rewrite delta_if, <- E.
    apply sumn_ext. intros k Hk. unfold mtrans at 1.
    rewrite <- !(mtrans_mmul R_ring). reflexivity.
  - intros i j Hi Hj. rewrite VC by assumption.
    change (mmul n (mtrans V) (mmul n B V) i j = mmul n (mtrans (mmul n U V)) (mmul n A (mmul n U V)) i j).
    rewrite (mmul_ext n (mtrans (mmul n U V)) _ (mmul n (mtrans V) (mtrans U)) (mmul n A (mmul n U V)))
      by (intros; try reflexivity; apply (mtrans_mmul R_ring)).
    rewrite (mmul_assoc R_ring). apply mmul_ext; [reflexivity|intros k Hk].
    rewrite (mmul_ext n B V (mmul n (mtrans U) (mmul n A U)) V) by (intros; try reflexivity; apply UB; assumption).
    rewrite (mmul_assoc R_ring). apply mmul_ext; [reflexivity|intros l Hl]. apply (mmul_assoc R_ring).
Qed.

Lemma orth_similar_char_poly n A B : orth_similar n A B -> forall x, char_poly n B x = char_poly n A x.
Proof.
  intros (U & U1 & U2 & UB) x. unfold char_poly.
  set (MA := fun i j => A i j - x * (if Nat.eqb i j then 1 else 0)).
  set (MB := fun i j => B i j - x * (if Nat.eqb i j then 1 else 0)).
  assert (E : forall i j, (i < n)%nat -> (j < n)%nat -> mmul n (mtrans U) (mmul n MA U) i j = MB i j).
  { intros i j Hi Hj. unfold MB. rewrite UB by assumption. rewrite <- (U1 i j Hi Hj).
    rewrite <- Rmult_comm. change Rmult with (@mul R R_Num). rewrite <- (sumn_scal_r R_ring).
    change Rminus with (@sub R R_Num). rewrite <- (sumn_sub R_ring). apply sumn_ext. intros k Hk.
    unfold mtrans, mmul, MA.
    rewrite (sumn_ext n _ (fun l => A k l * U l j - x * (delta k l * U l j))).
    2:{ intros l Hl. rewrite delta_if. cbn [sub mul R_Num]. ring. }
    change Rminus with (@sub R R_Num). rewrite (sumn_sub R_ring).
    change Rmult with (@mul R R_Num). rewrite (sumn_scal R_ring).
    rewrite (sumn_delta_l R_ring n k (fun l => U l j)) by exact Hk. cbn [sub mul R_Num]. ring. }
  rewrite <- (ldet_ext n (mmul n (mtrans U) (mmul n MA U)) MB) by exact E.
  rewrite !(ldet_mul R_ring), (ldet_trans R_ring).
  assert (D : ldet n U * ldet n U = 1).
  { rewrite <- (ldet_trans R_ring n U) at 1. change Rmult with (@mul R R_Num). rewrite <- (ldet_mul R_ring).
    rewrite (ldet_ext n _ delta) by exact U1. apply (ldet_id R_ring). }
  cbn [mul R_Num]. transitivity (ldet n U * ldet n U * ldet n MA); [ring|rewrite D; ring].
Qed.

Lemma orth_similar_trace n A B : orth_similar n A B -> sumn n (fun i => B i i) = sumn n (fun i => A i i).
Proof.
  intros (U & U1 & U2 & UB).
  transitivity (sumn n (fun i => sumn n (fun k => U k i * sumn n (fun l => A k l * U l i)))).
  { apply sumn_ext. intros i Hi. now apply UB. }
  rewrite (sumn_swap R_ring). apply sumn_ext. intros k Hk.
  transitivity (sumn n (fun i => sumn n (fun l => A k l * (U l i * U k i)))).
  { apply sumn_ext. intros i Hi. change Rmult with (@mul R R_Num). rewrite <- (sumn_scal R_ring).
    apply sumn_ext. intros l Hl. cbn [mul R_Num]. ring. }
  rewrite (sumn_swap R_ring).
  rewrite (sumn_ext n _ (fun l => A k l * delta l k)).
  - apply (sumn_delta_r R_ring). exact Hk.
  - intros l Hl. change Rmult with (@mul R R_Num). rewrite (sumn_scal R_ring). f_equal. now apply U2.
Qed.

Section Props.
Context {K : RConsts} (OK : RConstsOk K).

(** ** C83: the QR iteration *)

(** One step: never a panic; the new matrix is orthogonally similar to the old one. *)
Lemma c83_step : forall d (A : mat R (dimn d)),
  exists B, convert_to_similar d A = Ok B /\ orth_similar (dimn d) (mfun A) (mfun B).
Proof.
  intros d A. unfold convert_to_similar.
  destruct (Rlt_le_dec (Rabs (ldet (dimn d) (mfun A))) r_eps) as [L|L].
  - apply (c12_qr_none_iff OK) in L. rewrite L. exists A. split; [reflexivity|apply orth_similar_refl].
  - destruct (c12_qr OK d A L) as (q & r & H & E & O1 & O2 & _). rewrite H.
    exists (d_mul d r q). split; [reflexivity| ].
    assert (T1 : forall i j, (i < dimn d)%nat -> (j < dimn d)%nat -> mmul (dimn d) (mtrans (mfun q)) (mfun q) i j = delta i j).
    { intros i j Hi Hj. rewrite <- (d_identity_entry d i j), <- O1, (d_mul_entry R_ring) by assumption.
      apply mmul_ext; [ |reflexivity]. intros m Hm. now rewrite d_transpose_entry. }
    exists (mfun q). split; [exact T1|split]; intros i j Hi Hj.
    + rewrite delta_if, <- (d_identity_entry d i j), <- O2, (d_mul_entry R_ring) by assumption.
      apply sumn_ext. intros m Hm. now rewrite d_transpose_entry.
    + rewrite (d_mul_entry R_ring) by assumption.
      change (mmul (dimn d) (mfun r) (mfun q) i j = mmul (dimn d) (mtrans (mfun q)) (mmul (dimn d) (mfun A) (mfun q)) i j).
      rewrite <- (mmul_assoc R_ring). apply mmul_ext; [ |reflexivity]. intros k Hk.
      rewrite <- (mmul_id_l R_ring (dimn d) (mfun r) i k) by assumption.
      rewrite (mmul_ext (dimn d) delta _ (mmul (dimn d) (mtrans (mfun q)) (mfun q)) (mfun r))
        by (intros; try reflexivity; symmetry; now apply T1).
      rewrite (mmul_assoc R_ring). apply mmul_ext; [reflexivity|intros l Hl].
      rewrite <- E. symmetry. now apply (d_mul_entry R_ring).
Qed.

(** What a step keeps: every value of the characteristic polynomial, so the eigenvalues, and
    with them the determinant; the trace. *)
Lemma c83_step_invariants : forall d (A B : mat R (dimn d)), convert_to_similar d A = Ok B ->
  (forall x, char_poly (dimn d) (mfun B) x = char_poly (dimn d) (mfun A) x)
  /\ d_det d B = d_det d A /\ d_trace d B = d_trace d A.
Proof.
  intros d A B H. destruct (c83_step d A) as (B' & E & S). rewrite H in E. injection E as <-.
  split; [now apply orth_similar_char_poly|split].
  - pose proof (orth_similar_char_poly _ _ _ S 0) as C. rewrite !(d_det_ldet R_ring).
    unfold char_poly in C. rewrite (ldet_ext _ _ (mfun B)), (ldet_ext _ (fun i j => mfun A i j - _) (mfun A)) in C
      by (intros; ring). exact C.
  - rewrite !(d_trace_entry R_ring). now apply orth_similar_trace.
Qed.

Lemma eigen_check (m : M33 R) tol l : get_lower_triangular 3 m = Ok l -> check_elements (alist l) tol = true <->
  (exists i j, (j < i)%nat /\ (i < 3)%nat /\ (mfun m i j = 0 \/ Rabs (mfun m i j) < tol)).
Proof.
  destruct m as ((a&b&c&[])&(d&e&f&[])&(g&h&k&[])&[]). intros H. lazy -[check_elements] in H. injection H as <-.
  unfold check_elements. cbn [alist fold_left orb].
  rewrite !orb_true_iff. change (@zero R R_Num) with 0. rewrite !nearly_equal_0.
  split.
  - intros [[E|E]|E]; [exists 1%nat, 0%nat|exists 2%nat, 0%nat|exists 2%nat, 1%nat]; repeat split; try lia; exact E.
  - intros (i & j & Hij & Hi & E). destruct i as [ |[ |[ | ]]]; try lia; destruct j as [ |[ | ]]; try lia; cbn in E; auto.
Qed.

Lemma eigen_while_spec tol k : forall m result c, exists m' c',
  eigen_while tol k m result c = Ok (m', c')
  /\ orth_similar 3 (mfun m) (mfun m') /\ (c <= c' <= c + k)%nat
  /\ (c' = (c + k)%nat \/ c' = c /\ result = true \/
      exists i j, (j < i)%nat /\ (i < 3)%nat /\ (mfun m' i j = 0 \/ Rabs (mfun m' i j) < tol)).
Proof.
  induction k as [ |k IH]; intros m result c.
  - exists m, c. cbn. repeat split; try lia; [apply orth_similar_refl]. 
  - cbn [eigen_while]. destruct result; cbn [negb].
    + exists m, c. repeat split; try lia; auto. apply orth_similar_refl.
    + destruct (c83_step D3 m) as (B & E & S). rewrite E. cbn [bind].
      destruct (proj1 (c13_get_lower_triangular (T := R)) B) as (l & L & _).
      change (get_lower_triangular (n := dimn D3) 3 B) with (get_lower_triangular (n := 3) 3 B). rewrite L. cbn [bind].
      destruct (IH B (check_elements (alist l) tol) (Datatypes.S c)) as (m' & c' & W & O & Hc & D).
      exists m', c'. split; [exact W|split; [exact (orth_similar_trans _ _ _ _ S O)|split; [lia| ]]].
      destruct D as [D|[[D1 D2]|D]]; [left; lia| |right; right; exact D].
      destruct k as [ |k]; [left; lia|right; right].
      cbn [eigen_while] in W. rewrite D2 in W. cbn [negb] in W. injection W as <- <-.
      apply (eigen_check B tol l L). exact D2.
Qed.

(** The program ends with the diagonal of a matrix that has the eigenvalues of the one it was
    given. The count is at most [max_iterations]. The iteration stops before that only when
    some entry below the diagonal is zero or below the tolerance. *)
Lemma c83_eigenvalues_partial : forall tol max_iterations (A : M33 R),
  exists (e : V3 R) counter (m : M33 R), eigenvalues tol max_iterations A = Ok (e, counter)
    /\ (forall i, (i < 3)%nat -> vfun e i = mfun m i i)
    /\ orth_similar 3 (mfun A) (mfun m)
    /\ (forall x, char_poly 3 (mfun m) x = char_poly 3 (mfun A) x)
    /\ (counter <= max_iterations)%nat
    /\ (counter = max_iterations \/
        exists i j, (j < i)%nat /\ (i < 3)%nat /\ (mfun m i j = 0 \/ Rabs (mfun m i j) < tol)).
Proof.
  intros tol k A. destruct (eigen_while_spec tol k A false 0) as (m & c & W & S & Hc & D).
  exists [| mfun m 0 0; mfun m 1 1; mfun m 2 2 |], c, m. unfold eigenvalues. rewrite W. cbn [bind].
  split; [ |split; [ |split; [exact S|split; [now apply orth_similar_char_poly|split; [lia| ]]]]].
  - clear. destruct m as ((a&b&c'&[])&(d&e&f&[])&(g&h&k&[])&[]). reflexivity.
  - intros i Hi. all_lt i Hi; reflexivity.
  - destruct D as [D|[[_ D]|D]]; [left; lia|discriminate|right; exact D].
Qed.

(** If every entry below the diagonal is zero, the values are the eigenvalues, with their
    multiplicities. *)
Lemma c83_triangular : forall d (A B : mat R (dimn d)), orth_similar (dimn d) (mfun A) (mfun B) ->
  (forall i j, (j < i)%nat -> (i < dimn d)%nat -> mfun B i j = 0) ->
  forall x, char_poly (dimn d) (mfun A) x = prodn (dimn d) (fun i => mfun B i i - x).
Proof.
  intros d A B S Z x. rewrite <- (orth_similar_char_poly _ _ _ S). unfold char_poly.
  rewrite (ldet_upper R_ring).
  - apply prodn_ext. intros i Hi. rewrite Nat.eqb_refl. ring.
  - intros i j Hi Hj L. rewrite (Z i j L Hi). rewrite (proj2 (Nat.eqb_neq i j)) by lia. cbn [zero R_Num]. ring.
Qed.

(** If all of them are within [tau] of zero, every value [e] of the diagonal is nearly an eigenvalue:
    [|det (A - e I)|] is at most [5 tau B^2], with [B] a bound of the entries of [m - e I]. *)
Lemma c83_nearly_triangular : forall (A m : M33 R) tau B k,
  orth_similar 3 (mfun A) (mfun m) -> (k < 3)%nat ->
  (forall i j, (j < i)%nat -> (i < 3)%nat -> Rabs (mfun m i j) <= tau) ->
  (forall i j, (i < 3)%nat -> (j < 3)%nat -> Rabs (mfun m i j - mfun m k k * (if Nat.eqb i j then 1 else 0)) <= B) ->
  Rabs (char_poly 3 (mfun A) (mfun m k k)) <= 5 * tau * (B * B).
Proof.
  intros A m tau B k S Hk L U. rewrite <- (orth_similar_char_poly _ _ _ S). unfold char_poly.
  set (N := fun i j => mfun m i j - mfun m k k * (if Nat.eqb i j then 1 else 0)).
  assert (Lo : forall i j, (j < i)%nat -> (i < 3)%nat -> Rabs (N i j) <= tau).
  { intros i j Hij Hi. unfold N. rewrite (proj2 (Nat.eqb_neq i j)) by lia. rewrite Rmult_0_r, Rminus_0_r. now apply L. }
  assert (Z : N 0%nat 0%nat * N 1%nat 1%nat * N 2%nat 2%nat = 0).
  { assert (N k k = 0) by (unfold N; rewrite Nat.eqb_refl; ring). all_lt k Hk; rewrite H; ring. }
  change (forall i j, (i < 3)%nat -> (j < 3)%nat -> Rabs (N i j) <= B) in U.
  change (Rabs (ldet 3 N) <= 5 * tau * (B * B)).
  assert (E : ldet 3 N = N 0%nat 0%nat * N 1%nat 1%nat * N 2%nat 2%nat
     - N 2%nat 1%nat * (N 0%nat 0%nat * N 1%nat 2%nat) - N 1%nat 0%nat * (N 0%nat 1%nat * N 2%nat 2%nat)
     + N 2%nat 0%nat * (N 0%nat 1%nat * N 1%nat 2%nat) + N 2%nat 1%nat * (N 0%nat 2%nat * N 1%nat 0%nat)
     - N 2%nat 0%nat * (N 0%nat 2%nat * N 1%nat 1%nat)).
  { lazy -[Rplus Rmult Ropp Rminus IZR N]. ring. }
  rewrite E, Z. clear E Z S.
  assert (P : forall a b c, Rabs a <= tau -> Rabs b <= B -> Rabs c <= B -> Rabs (a * (b * c)) <= tau * (B * B)).
  { clear. intros a b c Ha Hb Hc. rewrite !Rabs_mult.
    apply Rmult_le_compat; [apply Rabs_pos|apply Rmult_le_pos; apply Rabs_pos|exact Ha| ].
    apply Rmult_le_compat; try apply Rabs_pos; assumption. }
  pose proof (P _ _ _ (Lo 2 1 ltac:(lia) ltac:(lia))%nat (U 0 0 ltac:(lia) ltac:(lia))%nat (U 1 2 ltac:(lia) ltac:(lia))%nat) as P1.
  pose proof (P _ _ _ (Lo 1 0 ltac:(lia) ltac:(lia))%nat (U 0 1 ltac:(lia) ltac:(lia))%nat (U 2 2 ltac:(lia) ltac:(lia))%nat) as P2.
  pose proof (P _ _ _ (Lo 2 0 ltac:(lia) ltac:(lia))%nat (U 0 1 ltac:(lia) ltac:(lia))%nat (U 1 2 ltac:(lia) ltac:(lia))%nat) as P3.
  pose proof (P _ _ _ (Lo 2 1 ltac:(lia) ltac:(lia))%nat (U 0 2 ltac:(lia) ltac:(lia))%nat (U 1 0 ltac:(lia) ltac:(lia))%nat) as P4.
  pose proof (P _ _ _ (Lo 2 0 ltac:(lia) ltac:(lia))%nat (U 0 2 ltac:(lia) ltac:(lia))%nat (U 1 1 ltac:(lia) ltac:(lia))%nat) as P5.
  clear - P1 P2 P3 P4 P5.
  revert P1 P2 P3 P4 P5. unfold Rabs. repeat destruct Rcase_abs; lra.
Qed.

(** The values need not be eigenvalues, however small the tolerance: the test is met as soon as
    one entry below the diagonal is zero. For the symmetric matrix below, of eigenvalues
    1, 1 and 7, the program stops at once with 1, 172/25 and 28/25. *)
Lemma c83_eigenvalues_refuted : exists A : M33 R, forall tol max_iterations, (0 < max_iterations)%nat ->
  (forall x, char_poly 3 (mfun A) x = (1 - x) * (1 - x) * (7 - x))
  /\ eigenvalues tol max_iterations A = Ok ([| 1; 172 / 25; 28 / 25 |], 1%nat)
  /\ char_poly 3 (mfun A) (172 / 25) <> 0 /\ char_poly 3 (mfun A) (28 / 25) <> 0.
Proof.
  exists [| [| 1; 0; 0 |]; [| 0; 4; 3 |]; [| 0; 3; 4 |] |]. intros tol k Hk.
  set (A := _ : M33 R).
  assert (C : forall x, char_poly 3 (mfun A) x = (1 - x) * (1 - x) * (7 - x)).
  { intros x. lazy -[Rplus Rmult Ropp Rminus IZR]. ring. }
  split; [exact C|split; [ |rewrite !C; split; nra]].
  assert (Q : d_qr D3 A = Ok (Some ([| [| 1; 0; 0 |]; [| 0; 4 / 5; - (3 / 5) |]; [| 0; 3 / 5; 4 / 5 |] |],
              [| [| 1; 0; 0 |]; [| 0; 5; 24 / 5 |]; [| 0; 0; 7 / 5 |] |]))).
  { apply (c12_qr_unique OK D3).
    - pose proof (eps_small _ OK).
      match goal with |- _ <= Rabs ?t => replace t with 7 end.
      + rewrite Rabs_right; lra.
      + lazy -[Rplus Rmult Ropp Rminus IZR]. ring.
    - lazy -[Rplus Rmult Ropp Rminus Rdiv Rinv IZR].
      repeat match goal with |- (_, _) = (_, _) => refine (f_equal2 pair _ _) end; try reflexivity; field.
    - lazy -[Rplus Rmult Ropp Rminus Rdiv Rinv IZR].
      repeat match goal with |- (_, _) = (_, _) => refine (f_equal2 pair _ _) end; try reflexivity; field.
    - intros i j Hi Hj. cbn [dimn] in Hi. all_lt i Hi; try lia; all_lt j Hj; reflexivity.
    - intros i Hi. cbn [dimn] in Hi. all_lt i Hi; lazy -[Rlt Rdiv Rinv IZR]; lra. }
  assert (B : convert_to_similar D3 A = Ok [| [| 1; 0; 0 |]; [| 0; 172 / 25; 21 / 25 |]; [| 0; 21 / 25; 28 / 25 |] |]).
  { unfold convert_to_similar. rewrite Q. cbn [bind]. f_equal.
    lazy -[Rplus Rmult Ropp Rminus Rdiv Rinv IZR].
    repeat match goal with |- (_, _) = (_, _) => refine (f_equal2 pair _ _) end; try reflexivity; field. }
  unfold eigenvalues. destruct k as [ |k]; [lia| ]. cbn [eigen_while negb]. rewrite B. cbn [bind].
  set (m := _ : M33 R).
  change (get_lower_triangular 3 m) with (Ok [| 0; 0; 21 / 25 |]). cbn [bind].
  assert (X : check_elements (alist [| 0; 0; 21 / 25 |]) tol = true).
  { apply (eigen_check m tol); [reflexivity| ]. exists 1%nat, 0%nat. repeat split; try lia. left. reflexivity. }
  rewrite X. destruct k; reflexivity.
Qed.

(** ** C84: the linear solver *)

Lemma c84_solve : forall d (A : mat R (dimn d)) (b : arr R (dimn d)),
  r_eps <= Rabs (ldet (dimn d) (mfun A)) ->
  exists x, solve d A b = Ok (Some (x, b))
    /\ (forall i, (i < dimn d)%nat -> sumn (dimn d) (fun j => mfun A i j * vfun x j) = vfun b i)
    /\ (forall y, (forall i, (i < dimn d)%nat -> sumn (dimn d) (fun j => mfun A i j * vfun y j) = vfun b i) -> y = x).
Proof.
  intros d A b L. rewrite <- (d_det_ldet R_ring) in L.
  apply (nearly_zero_false OK) in L. destruct (inverse_adjugate d A L) as (B & E & _).
  destruct (c06_inverse_two_sided OK d A B E) as [I1 I2].
  unfold solve. rewrite E. cbn [bind]. exists (d_mul_v d B b).
  assert (V : d_mul_v d A (d_mul_v d B b) = b).
  { rewrite <- (c02_mul_v_mul R_ring), I1. apply (c02_mul_v_identity R_ring). }
  cbv zeta. split; [now rewrite V|split].
  - intros i Hi. transitivity (vfun (d_mul_v d A (d_mul_v d B b)) i); [ |now rewrite V].
    symmetry. now apply (d_mul_v_entry R_ring).
  - intros y Hy. assert (Y : d_mul_v d A y = b).
    { apply vfun_ext. intros i Hi. rewrite (d_mul_v_entry R_ring) by exact Hi. now apply Hy. }
    rewrite <- Y, <- (c02_mul_v_mul R_ring), I2. symmetry. apply (c02_mul_v_identity R_ring).
Qed.

Lemma c84_solve_none_iff : forall d (A : mat R (dimn d)) b,
  solve d A b = Ok None <-> Rabs (ldet (dimn d) (mfun A)) < r_eps.
Proof.
  intros d A b. rewrite <- (c07_inverse_none_iff OK). unfold solve.
  destruct (d_inverse d A) as [[B| ]| ]; cbn [bind]; split; intros H; try discriminate; reflexivity.
Qed.

Lemma c84_inverse_check : forall d (A : mat R (dimn d)) B C,
  inverse_check d A = Ok (Some (B, C)) ->
  d_mul d A B = d_identity d /\ d_mul d B A = d_identity d /\ C = d_identity d.
Proof.
  intros d A B C. unfold inverse_check. destruct (d_inverse d A) as [[B'| ]| ] eqn:E; cbn [bind]; intros H; try discriminate.
  injection H as <- <-. destruct (c06_inverse_two_sided OK d A B' E) as [H1 H2]. auto.
Qed.

End Props.

(** ** Concrete cases *)

(** a step on a matrix that [qr()] factors, and the values it keeps *)
Example C83_step_case :
  exists B, convert_to_similar (fT := R_Float f64_consts) D3 [| [| 1; 0; 0 |]; [| 0; 4; 3 |]; [| 0; 3; 4 |] |] = Ok B
  /\ d_det D3 B = 7 /\ d_trace D3 B = 9.
Proof.
  destruct (c83_step f64_consts_ok D3 [| [| 1; 0; 0 |]; [| 0; 4; 3 |]; [| 0; 3; 4 |] |]) as (B & E & _).
  exists B. split; [exact E| ]. destruct (c83_step_invariants f64_consts_ok D3 _ B E) as (_ & D & T).
  rewrite D, T. split; lazy -[Rplus Rmult Ropp Rminus IZR]; ring.
Qed.

(** a full matrix similar to a triangular one *)
Example C83_triangular_case : forall x,
  char_poly 2 (mfun ([| [| 33 / 25; - (6 / 25) |]; [| - (56 / 25); 67 / 25 |] |] : M22 R)) x = (1 - x) * (3 - x).
Proof.
  intros x. rewrite (c83_triangular D2 _ [| [| 1; 2 |]; [| 0; 3 |] |]).
  - lazy -[Rplus Rmult Ropp Rminus IZR]. ring.
  - exists (mfun ([| [| 3 / 5; - (4 / 5) |]; [| 4 / 5; 3 / 5 |] |] : M22 R)).
    split; [ |split]; intros i j Hi Hj; cbn [dimn] in Hi, Hj; all_lt i Hi; all_lt j Hj;
      lazy -[Rplus Rmult Ropp Rminus Rdiv Rinv IZR]; field.
  - intros i j Hij Hi. cbn [dimn] in Hi. all_lt i Hi; try lia; all_lt j Hij; reflexivity.
Qed.

Example C83_nearly_triangular_case :
  Rabs (char_poly 3 (mfun ([| [| 1; 2; 1 |]; [| 1 / 1000; 3; 1 |]; [| 0; 0; 5 |] |] : M33 R)) 3) <= 5 * (1 / 1000) * (2 * 2).
Proof.
  apply (c83_nearly_triangular _ [| [| 1; 2; 1 |]; [| 1 / 1000; 3; 1 |]; [| 0; 0; 5 |] |] (1 / 1000) 2 1).
  - apply orth_similar_refl.
  - lia.
  - intros i j Hij Hi. all_lt i Hi; try lia; all_lt j Hij; lazy -[Rle Rabs Rdiv Rinv IZR];
      unfold Rabs; destruct Rcase_abs; lra.
  - intros i j Hi Hj. all_lt i Hi; all_lt j Hj; lazy -[Rle Rabs Rdiv Rinv Rminus Rmult IZR];
      unfold Rabs; destruct Rcase_abs; lra.
Qed.

Example C84_case :
  solve (fT := R_Float f64_consts) D3 [| [| 1; 2; 3 |]; [| 0; 1; 4 |]; [| 5; 6; 0 |] |] [| 14; 14; 17 |]
  = Ok (Some ([| 1; 2; 3 |], [| 14; 14; 17 |])).
Proof.
  destruct (c84_solve f64_consts_ok D3 [| [| 1; 2; 3 |]; [| 0; 1; 4 |]; [| 5; 6; 0 |] |] [| 14; 14; 17 |])
    as (x & E & _ & U).
  - exact C12_example.
  - rewrite E. f_equal. f_equal. f_equal. symmetry. apply U.
    intros i Hi. cbn [dimn] in Hi. all_lt i Hi; lazy -[Rplus Rmult Ropp Rminus IZR]; ring.
Qed.

(** a regular matrix that the solver rejects: its determinant is below [epsilon] *)
Example C84_none_case :
  solve (fT := R_Float f64_consts) D2 [| [| @r_eps f64_consts; 0 |]; [| 0; 1 / 2 |] |] [| 1; 1 |] = Ok None.
Proof.
  apply (c84_solve_none_iff f64_consts_ok D2). pose proof (eps_pos _ f64_consts_ok) as P.
  match goal with |- Rabs ?t < _ => replace t with (@r_eps f64_consts / 2) end.
  - rewrite Rabs_right; lra.
  - lazy -[Rplus Rmult Ropp Rminus Rdiv Rinv IZR r_eps]. field.
Qed.

Example C84_inverse_check_case : exists B,
  inverse_check (fT := R_Float f64_consts) D3 [| [| 1; 2; 3 |]; [| 0; 1; 4 |]; [| 5; 6; 0 |] |] = Ok (Some (B, d_identity D3)).
Proof.
  unfold inverse_check. rewrite C06_example. eexists. cbn [bind]. f_equal. f_equal. f_equal.
  eapply (fun E => proj2 (proj2 (c84_inverse_check f64_consts_ok D3 _ _ _ E))). unfold inverse_check. rewrite C06_example. reflexivity.
Qed.
