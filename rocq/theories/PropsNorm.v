(** * PropsNorm: C09 (Frobenius norm), C18, C19 over the reals *)

From Coq Require Import List Arith Lia Bool Reals Lra.
From Verif Require Import Base Scalar Vec Mat2 Mat3 Mat4 Mat5 Mat6 Slices MatLoops MatOps
  RingDet Spec LoopFacts Entries InstR RFacts QRFacts.
From Verif Require Import ProofsNorm.
(** Concrete cases meeting the hypotheses: the Examples of ProofsNorm.v and of Cases.v. *)
Import ListNotations.
Local Open Scope R_scope.

Section Props.
Context {K : RConsts}.

Theorem C18_norm2_dot : forall d (v : arr R (dimn d)), d_vnorm2 d v = sqrt (d_vdot d v v).
Proof. exact c18_norm2_dot. Qed.
Print Assumptions C18_norm2_dot.

Theorem C18_dot_nonneg : forall d (v : arr R (dimn d)), 0 <= d_vdot d v v.
Proof. exact c18_dot_nonneg. Qed.
Print Assumptions C18_dot_nonneg.

Theorem C18_dot_zero_iff : forall d (v : arr R (dimn d)), d_vdot d v v = 0 <-> v = d_vzeros d.
Proof. exact c18_dot_zero_iff. Qed.
Print Assumptions C18_dot_zero_iff.

Theorem C18_cauchy_schwarz : forall d (v w : arr R (dimn d)),
  Rabs (d_vdot d v w) <= d_vnorm2 d v * d_vnorm2 d w.
Proof. exact c18_cauchy_schwarz. Qed.
Print Assumptions C18_cauchy_schwarz.

Theorem C18_triangle : forall d (v w : arr R (dimn d)),
  d_vnorm2 d (d_vadd d v w) <= d_vnorm2 d v + d_vnorm2 d w.
Proof. exact c18_triangle. Qed.
Print Assumptions C18_triangle.

Theorem C18_norm2_scale : forall d (v : arr R (dimn d)) s,
  d_vnorm2 d (d_vscale d v s) = Rabs s * d_vnorm2 d v.
Proof. exact c18_norm2_scale. Qed.
Print Assumptions C18_norm2_scale.

Theorem C19_normalize_err_iff : forall d (v : arr R (dimn d)),
  d_vnormalize d v = Ok None <-> v = d_vzeros d.
Proof. exact c19_normalize_err_iff. Qed.
Print Assumptions C19_normalize_err_iff.

Theorem C19_normalize_ok : forall d (v : arr R (dimn d)), v <> d_vzeros d ->
  exists u, d_vnormalize d v = Ok (Some u)
    /\ d_vnorm2 d u = 1 /\ d_vscale d u (d_vnorm2 d v) = v.
Proof. exact c19_normalize_ok. Qed.
Print Assumptions C19_normalize_ok.

(** the slice version divides by the norm unconditionally *)
Theorem C19_slice_normalize : forall n (v : arr R n), (exists i, (i < n)%nat /\ vfun v i <> 0) ->
  norm2 (alist (normalize v)) = 1
  /\ forall i, (i < n)%nat -> vfun v i = vfun (normalize v) i * norm2 (alist v).
Proof. exact c19_slice_normalize. Qed.
Print Assumptions C19_slice_normalize.

Theorem C09_norm2_square : forall d (A : mat R (dimn d)),
  d_norm2 d A * d_norm2 d A = sum_sq (dimn d) (mfun A)
  /\ d_trace d (d_mul d (d_transpose d A) A) = sum_sq (dimn d) (mfun A).
Proof. exact c09_norm2_square. Qed.
Print Assumptions C09_norm2_square.

Theorem C09_norm2_nonneg : forall d (A : mat R (dimn d)), 0 <= d_norm2 d A.
Proof. exact c09_norm2_nonneg. Qed.
Print Assumptions C09_norm2_nonneg.

Theorem C09_norm2_zero_iff : forall d (A : mat R (dimn d)), d_norm2 d A = 0 <-> A = d_zeros d.
Proof. exact c09_norm2_zero_iff. Qed.
Print Assumptions C09_norm2_zero_iff.

Theorem C09_norm2_submultiplicative : forall d (A B : mat R (dimn d)),
  d_norm2 d (d_mul d A B) <= d_norm2 d A * d_norm2 d B.
Proof. exact c09_norm2_submultiplicative. Qed.
Print Assumptions C09_norm2_submultiplicative.

Theorem C09_norm2_transpose : forall d (A : mat R (dimn d)),
  d_norm2 d (d_transpose d A) = d_norm2 d A.
Proof. exact c09_norm2_transpose. Qed.
Print Assumptions C09_norm2_transpose.

End Props.
