(** * InstI: machine integers

    [chk sg w] are the integer types of Rust (signed when [sg], [w] bits) in a
    debug build: an operation whose exact result does not fit makes the program
    panic. [Some z] is the number [z], [None] is "the program has panicked";
    [run_v], [run_m], [run_q] give the outcome of a whole function, which panics
    as soon as one of its components does (Rust evaluates all of them).
    In a release build additions, subtractions and multiplications wrap: [wint]
    of InstZ.v modulo [2^w], read back with [rd]. Divisions panic in both. *)

From Coq Require Import ZArith Lia Bool List Arith.
From Verif Require Import Base Scalar Vec Mat2 Mat3 Mat4 Mat5 Mat6 MatLoops MatOps Quat DualQuat RingDet Spec InstZ.
Open Scope Z_scope.

Definition lo (sg : bool) (w : Z) : Z := if sg then - 2 ^ (w - 1) else 0.
Definition hi (sg : bool) (w : Z) : Z := lo sg w + 2 ^ w - 1.

(** [z] is a value of the type *)
Definition fits (sg : bool) (w z : Z) : Prop := lo sg w <= z <= hi sg w.

Definition fitsb (sg : bool) (w z : Z) : bool := (lo sg w <=? z) && (z <=? hi sg w).

Lemma fitsb_iff sg w z : fitsb sg w z = true <-> fits sg w z.
Proof. unfold fitsb, fits. rewrite andb_true_iff, !Z.leb_le. tauto. Qed.

Definition chk (sg : bool) (w : Z) : Type := option Z.

Section Debug.
Variables (sg : bool) (w : Z).

Definition ck (z : Z) : chk sg w := if fitsb sg w z then Some z else None.
Definition c1 (f : Z -> Z) (x : chk sg w) : chk sg w := match x with Some a => ck (f a) | None => None end.
Definition c2 (f : Z -> Z -> Z) (x y : chk sg w) : chk sg w :=
  match x, y with Some a, Some b => ck (f a b) | _, _ => None end.
Definition cb (f : Z -> Z -> bool) (x y : chk sg w) : bool :=
  match x, y with Some a, Some b => f a b | _, _ => false end.

(** [/] panics on a zero divisor, and on [MIN / -1] because it does not fit *)
Definition c_div (x y : chk sg w) : chk sg w :=
  match x, y with Some a, Some b => if Z.eqb b 0 then None else ck (Z.quot a b) | _, _ => None end.

Global Instance chk_Num : Num (chk sg w) :=
  {| zero := Some 0; one := Some 1; add := c2 Z.add; sub := c2 Z.sub; mul := c2 Z.mul;
     div := c_div; eqb := cb Z.eqb |}.
Global Instance chk_Signed : Signed (chk sg w) := {| neg := c1 Z.opp; abs := c1 Z.abs |}.
Global Instance chk_POrd : POrd (chk sg w) := {| ltb := cb Z.ltb; leb := cb Z.leb |}.

Lemma ck_some z x : ck z = Some x <-> fits sg w z /\ x = z.
Proof.
  unfold ck. pose proof (fitsb_iff sg w z) as F. destruct (fitsb sg w z).
  - split; [intros E; injection E as <-; tauto|intros [_ ->]; reflexivity].
  - split; [discriminate|intros [H _]; apply F in H; discriminate].
Qed.

Lemma c2_some f (x y : chk sg w) z :
  c2 f x y = Some z <-> exists a b, x = Some a /\ y = Some b /\ fits sg w (f a b) /\ z = f a b.
Proof.
  destruct x as [a| ], y as [b| ]; cbn [c2];
    try (split; [discriminate|intros (a' & b' & X & Y & _); discriminate]).
  rewrite ck_some. split; [intros [H ->]; now exists a, b| ].
  intros (a' & b' & X & Y & H). injection X as <-. injection Y as <-. exact H.
Qed.

Definition im {n} (A : mat Z n) : mat (chk sg w) n := amap (amap (fun z => Some z)) A.
Definition iv {n} (v : arr Z n) : arr (chk sg w) n := amap (fun z => Some z) v.
Definition iq (a : Quaternion Z) : Quaternion (chk sg w) := mkQ (Some (q0 a)) (iv (n := 3) (q a)) (normalized a).
Definition idq (a : DualQuaternion Z) : DualQuaternion (chk sg w) :=
  mkDQ (iq (q_real_ a)) (iq (q_dual_ a)) (dq_normalized a).
End Debug.

Arguments im {sg w n}.
Arguments iv {sg w n}.
Arguments iq {sg w}.
Arguments idq {sg w}.

(** all components, or the panic *)
Fixpoint settle {A n} : arr (option A) n -> option (arr A n) :=
  match n with
  | O => fun _ => Some tt
  | S n' => fun v => match fst v, settle (snd v) with Some x, Some r => Some (x, r) | _, _ => None end
  end.

Definition run_s {sg w} (x : chk sg w) : outcome Z := match x with Some z => Ok z | None => Panic end.
Definition run_v {sg w n} (v : arr (chk sg w) n) : outcome (arr Z n) :=
  match settle (A := Z) v with Some u => Ok u | None => Panic end.
Definition run_m {sg w n} (A : mat (chk sg w) n) : outcome (mat Z n) :=
  match settle (A := arr Z n) (amap (fun r => settle (A := Z) r) A) with Some B => Ok B | None => Panic end.
Definition run_q {sg w} (a : Quaternion (chk sg w)) : outcome (Quaternion Z) :=
  match q0 a, settle (A := Z) (n := 3) (q a) with Some x, Some v => Ok (mkQ x v (normalized a)) | _, _ => Panic end.
Definition run_dq {sg w} (a : DualQuaternion (chk sg w)) : outcome (DualQuaternion Z) :=
  match run_q (q_real_ a), run_q (q_dual_ a) with
  | Ok r, Ok d => Ok (mkDQ r d (dq_normalized a)) | _, _ => Panic end.

(** ** [run] component by component *)
Lemma settle_iff {A n} (v : arr (option A) n) u :
  settle v = Some u <-> v = amap (fun x => Some x) u.
Proof.
  revert v u. induction n as [ |n IH]; cbn [settle amap].
  - intros [] []. tauto.
  - intros [x v] [y u]. cbn [fst snd]. specialize (IH v u). destruct x as [x| ].
    + destruct (settle v) as [r| ].
      * split; intros E.
        -- injection E as <- <-. f_equal. now apply IH.
        -- injection E as -> E. apply IH in E. injection E as ->. reflexivity.
      * split; intros E; [discriminate| ]. injection E as -> E. apply IH in E. discriminate.
    + split; intros E; [discriminate|injection E as E _; discriminate].
Qed.

Lemma run_v_iff {sg w n} (v : arr (chk sg w) n) u : run_v v = Ok u <-> v = iv u.
Proof.
  unfold run_v. pose proof (settle_iff (A := Z) v u) as S. change (amap (fun x => Some x) u) with (@iv sg w n u) in S.
  destruct (settle _) as [r| ].
  - split; intros E; [injection E as ->; now apply S|apply S in E; injection E as ->; reflexivity].
  - split; intros E; [discriminate|apply S in E; discriminate].
Qed.

Lemma settle_rows {n m} (A : arr (arr (option Z) n) m) B :
  settle (amap (fun r => settle (A := Z) r) A) = Some B <-> A = amap (amap (fun x => Some x)) B.
Proof.
  rewrite settle_iff. revert A B. induction m as [ |m IH]; cbn [amap].
  - intros [] []. tauto.
  - intros [r A] [b B]. cbn [fst snd]. specialize (IH A B). split; intros E; injection E as E1 E2; f_equal.
    + now apply settle_iff.
    + now apply IH.
    + now apply settle_iff.
    + now apply IH.
Qed.

Lemma run_m_iff {sg w n} (A : mat (chk sg w) n) B : run_m A = Ok B <-> A = im B.
Proof.
  unfold run_m. pose proof (settle_rows A B) as S.
  change (amap (amap (fun x => Some x)) B) with (@im sg w n B) in S.
  destruct (settle _) as [r| ].
  - split; intros E; [injection E as ->; now apply S|apply S in E; injection E as ->; reflexivity].
  - split; intros E; [discriminate|apply S in E; discriminate].
Qed.

Lemma run_q_iff {sg w} (a : Quaternion (chk sg w)) b : run_q a = Ok b <-> a = iq b.
Proof.
  unfold run_q, iq. destruct a as [x v f], b as [y u g]. cbn [q0 q normalized].
  pose proof (run_v_iff (n := 3) v) as S. unfold run_v in S. destruct x as [x| ], (settle _) as [r| ].
  - split; intros E.
    + injection E as -> -> ->. f_equal. apply S. reflexivity.
    + injection E as -> E ->. specialize (S u). apply S in E. injection E as ->. reflexivity.
  - split; intros E; [discriminate|injection E as -> E ->; apply S in E; discriminate].
  - split; intros E; discriminate.
  - split; intros E; discriminate.
Qed.

Lemma run_dq_iff {sg w} (a : DualQuaternion (chk sg w)) b : run_dq a = Ok b <-> a = idq b.
Proof.
  unfold run_dq, idq. destruct a as [x y f], b as [x' y' g]. cbn [q_real_ q_dual_ dq_normalized].
  pose proof (run_q_iff x) as X. pose proof (run_q_iff y) as Y.
  destruct (run_q x) as [r| ], (run_q y) as [s| ].
  - split; intros E.
    + injection E as -> -> ->. f_equal; [now apply X|now apply Y].
    + injection E as E1 E2 ->. apply X in E1. apply Y in E2. injection E1 as ->. injection E2 as ->. reflexivity.
  - split; intros E; [discriminate|injection E as E1 E2 ->; apply Y in E2; discriminate].
  - split; intros E; [discriminate|injection E as E1 E2 ->; apply X in E1; discriminate].
  - split; intros E; [discriminate|injection E as E1 E2 ->; apply X in E1; discriminate].
Qed.

Lemma vfun_iv {sg w n} (v : arr Z n) k : (k < n)%nat -> vfun (@iv sg w n v) k = Some (vfun v k).
Proof.
  revert k. induction n as [ |n IH]; [lia| ]. destruct v as [x v]. intros [ |k] H; [reflexivity| ].
  apply (IH v k). lia.
Qed.

Lemma mfun_im {sg w n} (A : mat Z n) i j : (i < n)%nat -> (j < n)%nat -> mfun (@im sg w n A) i j = Some (mfun A i j).
Proof.
  enough (G : forall m (A : arr (arr Z n) m), (i < m)%nat -> (j < n)%nat ->
    mfun (T := chk sg w) (amap (amap (fun z => Some z)) A) i j = Some (mfun A i j)) by apply G.
  revert i. clear A. induction i as [ |i IH]; intros [ |m] A Hi Hj; try lia.
  - destruct A as [r A]. apply (vfun_iv r j Hj).
  - destruct A as [r A]. apply (IH m A); lia.
Qed.

Lemma run_v_entry {sg w n} (v : arr (chk sg w) n) u :
  run_v v = Ok u <-> forall k, (k < n)%nat -> vfun v k = Some (vfun u k).
Proof.
  rewrite run_v_iff. split.
  - intros -> k H. now apply vfun_iv.
  - intros H. apply vfun_ext. intros i Hi. rewrite H by exact Hi. symmetry. now apply vfun_iv.
Qed.

Lemma run_m_entry {sg w n} (A : mat (chk sg w) n) B :
  run_m A = Ok B <-> forall i j, (i < n)%nat -> (j < n)%nat -> mfun A i j = Some (mfun B i j).
Proof.
  rewrite run_m_iff. split.
  - intros -> i j Hi Hj. now apply mfun_im.
  - intros H. apply mfun_ext. intros i j Hi Hj. rewrite H by assumption. symmetry. now apply mfun_im.
Qed.

(** a total entrywise result *)
Lemma run_m_total {sg w n} (A : mat (chk sg w) n) :
  (forall i j, (i < n)%nat -> (j < n)%nat -> mfun A i j <> None) -> exists B, run_m A = Ok B.
Proof.
  intros H. unfold run_m.
  enough (G : forall m (A : arr (arr (chk sg w) n) m), (forall i j, (i < m)%nat -> (j < n)%nat -> mfun A i j <> None) ->
    exists B, settle (amap (fun r => settle (A := Z) r) A) = Some B).
  { destruct (G n A H) as [B E]. exists B. now rewrite E. }
  clear A H.
  assert (V : forall k (v : arr (chk sg w) k), (forall j, (j < k)%nat -> vfun v j <> None) -> exists u, settle (A := Z) v = Some u).
  { induction k as [ |k IH]; [now exists tt| ]. intros [x v] H. destruct (IH v) as [u E].
    { intros j Hj. apply (H (S j)). lia. }
    pose proof (H 0%nat ltac:(lia)) as X. cbn in X. destruct x as [x| ]; [ |now contradict X].
    exists (x, u). cbn [settle fst snd]. change (option Z) with (chk sg w) in E. rewrite E. reflexivity. }
  induction m as [ |m IH]; [now exists tt| ]. intros [r A] H. destruct (IH A) as [B E].
  { intros i j Hi Hj. apply (H (S i) j); lia. }
  destruct (V n r) as [u F]. { intros j Hj. apply (H 0%nat j); lia. }
  exists (u, B). cbn [amap settle fst snd]. change (option Z) with (chk sg w) in *. rewrite F, E. reflexivity.
Qed.

(** ** Release builds: the value of a wrapped integer *)
Definition rd (sg : bool) (w : Z) (x : wint (2 ^ w)) : Z := (proj1_sig x - lo sg w) mod 2 ^ w + lo sg w.
(** the representative of [z] in the type *)
Definition wrap_to (sg : bool) (w z : Z) : Z := (z - lo sg w) mod 2 ^ w + lo sg w.

Lemma wrap_to_fits sg w z : 0 < w -> fits sg w (wrap_to sg w z).
Proof.
  intros H. unfold fits, wrap_to, hi. assert (P : 0 < 2 ^ w) by (apply Z.pow_pos_nonneg; lia).
  pose proof (Z.mod_pos_bound (z - lo sg w) (2 ^ w) P). lia.
Qed.
Lemma wrap_to_id sg w z : fits sg w z -> wrap_to sg w z = z.
Proof. unfold fits, wrap_to, hi. intros H. rewrite Z.mod_small by lia. lia. Qed.
Lemma rd_wrap sg w (H : 0 < 2 ^ w) z : rd sg w (wrap (2 ^ w) H z) = wrap_to sg w z.
Proof.
  unfold rd, wrap_to, wrap. cbn [proj1_sig]. f_equal. now rewrite Zminus_mod_idemp_l.
Qed.
