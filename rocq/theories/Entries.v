(** * Entries: what each operation of the model writes in each cell

    Cell-by-cell descriptions of the vector and matrix operations, for every
    size at once. The first section holds for any scalars whatsoever (floats
    included); the second uses the ring laws to reorder sums. *)

From Coq Require Import List Arith Lia Ring.
From Verif Require Import Base Scalar Vec Mat2 Mat3 Mat4 Mat5 Mat6 MatLoops MatOps RingDet Spec.
Open Scope sc_scope.

Ltac cells := lazy -[add mul zero one sub neg div fsqrt].

Section Any.
Context {T : Type} {nT : Num T} {sT : Signed T} {fT : Float T}.

Ltac mcells d := intros; destruct d; cbn [dimn] in *;
  repeat match goal with
  | [ H : (?i < _)%nat |- _ ] => all_lt i H
  end; reflexivity.

Lemma d_zeros_entry d i j : i < dimn d -> j < dimn d -> mfun (d_zeros d) i j = zero.
Proof. mcells d. Qed.
Lemma d_identity_entry d i j : i < dimn d -> j < dimn d -> mfun (d_identity d) i j = delta i j.
Proof. mcells d. Qed.
Lemma d_add_entry d (A B : mat T (dimn d)) i j : i < dimn d -> j < dimn d ->
  mfun (d_add d A B) i j = mfun A i j + mfun B i j.
Proof. mcells d. Qed.
Lemma d_sub_entry d (A B : mat T (dimn d)) i j : i < dimn d -> j < dimn d ->
  mfun (d_sub d A B) i j = mfun A i j - mfun B i j.
Proof. mcells d. Qed.
Lemma d_neg_entry d (A : mat T (dimn d)) i j : i < dimn d -> j < dimn d ->
  mfun (d_neg d A) i j = - mfun A i j.
Proof. mcells d. Qed.
Lemma d_scale_entry d (A : mat T (dimn d)) s i j : i < dimn d -> j < dimn d ->
  mfun (d_scale d A s) i j = mfun A i j * s.
Proof. mcells d. Qed.
Lemma d_div_entry d (A : mat T (dimn d)) s i j : i < dimn d -> j < dimn d ->
  mfun (d_div d A s) i j = mfun A i j / s.
Proof. mcells d. Qed.
Lemma d_transpose_entry d (A : mat T (dimn d)) i j : i < dimn d -> j < dimn d ->
  mfun (d_transpose d A) i j = mfun A j i.
Proof. mcells d. Qed.

Lemma d_vzeros_entry d i : i < dimn d -> vfun (d_vzeros d) i = zero.
Proof. mcells d. Qed.
Lemma d_vones_entry d i : i < dimn d -> vfun (d_vones d) i = one.
Proof. mcells d. Qed.
Lemma d_vadd_entry d (v w : arr T (dimn d)) i : i < dimn d ->
  vfun (d_vadd d v w) i = vfun v i + vfun w i.
Proof. mcells d. Qed.
Lemma d_vsub_entry d (v w : arr T (dimn d)) i : i < dimn d ->
  vfun (d_vsub d v w) i = vfun v i - vfun w i.
Proof. mcells d. Qed.
Lemma d_vneg_entry d (v : arr T (dimn d)) i : i < dimn d ->
  vfun (d_vneg d v) i = - vfun v i.
Proof. mcells d. Qed.
Lemma d_vscale_entry d (v : arr T (dimn d)) s i : i < dimn d ->
  vfun (d_vscale d v s) i = vfun v i * s.
Proof. mcells d. Qed.
Lemma d_vdiv_entry d (v : arr T (dimn d)) s i : i < dimn d ->
  vfun (d_vdiv d v s) i = vfun v i / s.
Proof. mcells d. Qed.

(** the scalar on the left: the sizes differ in the order of the factors *)
Lemma d_vlscale_entry d (v : arr T (dimn d)) s i : i < dimn d ->
  vfun (d_vlscale d s v) i = vfun v i * s \/ vfun (d_vlscale d s v) i = s * vfun v i.
Proof.
  intros; destruct d; cbn [dimn] in *;
  repeat match goal with
  | [ H : (?i < _)%nat |- _ ] => all_lt i H
  end; (left; reflexivity) || (right; reflexivity).
Qed.

End Any.

Lemma d_transpose_mget U d (A : mat U (dimn d)) i j : i < dimn d -> j < dimn d ->
  mget (d_transpose d A) i j = mget A j i.
Proof.
  intros Hi Hj. destruct d; cbn [dimn] in *; all_lt i Hi; all_lt j Hj; reflexivity.
Qed.

Section WithRing.
Context {T : Type} {nT : Num T} {sT : Signed T}.
Variable RT : RingLaws T.
Let RT' : ring_theory zero one add mul sub neg (@eq T) := RT.
Add Ring TheRing : RT'.

Ltac rcells d := intros; destruct d; cbn [dimn] in *;
  repeat match goal with
  | [ H : (?i < _)%nat |- _ ] => all_lt i H
  end; cells; ring.

Lemma d_mul_entry d (A B : mat T (dimn d)) i j : i < dimn d -> j < dimn d ->
  mfun (d_mul d A B) i j = mmul (dimn d) (mfun A) (mfun B) i j.
Proof. rcells d. Qed.

Lemma d_mul_v_entry d (A : mat T (dimn d)) v i : i < dimn d ->
  vfun (d_mul_v d A v) i = sumn (dimn d) (fun k => mfun A i k * vfun v k).
Proof. rcells d. Qed.

Lemma d_vmul_m_entry d (v : arr T (dimn d)) A i : d <> D3 -> i < dimn d ->
  vfun (d_vmul_m d v A) i = sumn (dimn d) (fun k => vfun v k * mfun A k i).
Proof.
  intros Hd Hi; destruct d; cbn [dimn] in *; try congruence; all_lt i Hi; cells; ring.
Qed.

Lemma d_trace_entry d (A : mat T (dimn d)) :
  d_trace d A = sumn (dimn d) (fun i => mfun A i i).
Proof. rcells d. Qed.

Lemma d_vdot_entry d (v w : arr T (dimn d)) :
  d_vdot d v w = sumn (dimn d) (fun i => vfun v i * vfun w i).
Proof. rcells d. Qed.

End WithRing.
