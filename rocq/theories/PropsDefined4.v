(** * PropsDefined4: no undefined operation in matrices, vectors and slices (C77)

    As in ProofsDefined.v: a function on the reals is compared with the same
    function on [option R] (InstE.v), where a division by zero or a root of a
    negative number gives an error that spreads. *)

From Coq Require Import Reals Lra Bool List Arith Lia.
From Verif Require Import Base Scalar Vec Slices Mat2 Mat3 Mat4 Mat5 Mat6 MatLoops MatOps Quat Transf DualQuat
  RingDet Spec Entries DetEntries ProofsLoops InstR RFacts InstE LoopFacts QRFacts ProofsQR RelFacts ProofsDefined LiftFacts.
From Verif Require Import ProofsDefined4.
(** Concrete cases meeting the hypotheses: the Examples of ProofsDefined4.v and of Cases.v. *)
Import ListNotations.
Local Open Scope R_scope.

Section Defined4.
Context {K : RConsts} (OK : RConstsOk K).

(** ** Matrices *)
Theorem C77_scalar_div : forall d (A : mat R (dimn d)) s,
  d_div d (up_m A) (Some s) = up_m (d_div d A s) <-> s <> 0.
Proof. exact c77_scalar_div. Qed.
Print Assumptions C77_scalar_div.

Theorem C77_inverse : forall d (A : mat R (dimn d)),
  d_inverse d (up_m A) = up_o (option_map up_m) (d_inverse d A).
Proof. exact (c77_inverse OK). Qed.
Print Assumptions C77_inverse.

Theorem C77_qr : forall d (A : mat R (dimn d)),
  d_qr d (up_m A) = up_o (option_map up_qr) (d_qr d A).
Proof. exact (c77_qr OK). Qed.
Print Assumptions C77_qr.

Theorem C77_lu : forall d (A : mat R (dimn d)), d_lu d (up_m A) = up_o up_lu (d_lu d A).
Proof. exact (c77_lu OK). Qed.
Print Assumptions C77_lu.

Theorem C77_norm2 : forall d (A : mat R (dimn d)), d_norm2 d (up_m A) = Some (d_norm2 d A).
Proof. exact c77_norm2. Qed.
Print Assumptions C77_norm2.

Theorem C77_real_eigenvals : forall A : M22 R,
  m22_real_eigenvals (up_m (n:=2) A) = option_map (up_v (n:=2)) (m22_real_eigenvals A).
Proof. exact c77_real_eigenvals. Qed.
Print Assumptions C77_real_eigenvals.

(** ** Vectors *)
Theorem C77_vnorm2 : forall d (v : arr R (dimn d)), d_vnorm2 d (up_v v) = Some (d_vnorm2 d v).
Proof. exact c77_vnorm2. Qed.
Print Assumptions C77_vnorm2.

Theorem C77_vdiv : forall d (v : arr R (dimn d)) s,
  d_vdiv d (up_v v) (Some s) = up_v (d_vdiv d v s) <-> s <> 0.
Proof. exact c77_vdiv. Qed.
Print Assumptions C77_vdiv.

Theorem C77_vnormalize : forall d (v : arr R (dimn d)),
  d_vnormalize d (up_v v) = up_o (option_map up_v) (d_vnormalize d v).
Proof. exact c77_vnormalize. Qed.
Print Assumptions C77_vnormalize.

(** ** Slices of any length *)
Theorem C77_slice_norm2 : forall l : list R, norm2 (map Some l) = Some (norm2 l).
Proof. exact c77_slice_norm2. Qed.
Print Assumptions C77_slice_norm2.

(** the only division is by the norm: undefined exactly for a non-empty slice of zeros *)
Theorem C77_slice_normalize : forall n (v : arr R n),
  normalize (up_v v) = up_v (normalize v) <-> (n = 0%nat \/ exists i, (i < n)%nat /\ vfun v i <> 0).
Proof. exact c77_slice_normalize. Qed.
Print Assumptions C77_slice_normalize.

Theorem C77_project : forall (x y : list R), length x = length y ->
  (project_x_over_y (map Some x) (map Some y) = up_o Some (project_x_over_y x y)
   <-> exists a, In a y /\ a <> 0).
Proof. exact c77_project. Qed.
Print Assumptions C77_project.

End Defined4.
