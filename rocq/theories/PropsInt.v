(** * PropsInt: vectors, matrices and quaternions of machine integers (C76)

    [sg] and [w] range over all integer types: i8 .. i128, u8 .. u128, isize, usize.
    The functions whose bound is [T: Num + Copy] (and [Signed]) accept them. *)

From Coq Require Import ZArith Lia Bool List Arith Ring.
From Verif Require Import Base Scalar Vec Mat2 Mat3 Mat4 Mat5 Mat6 MatLoops MatOps Quat DualQuat RingDet Spec
  Entries InstZ InstI ProofsRing ProofsQuat ProofsRigid FloatFacts.
From Verif Require Import ProofsInt.
(** Concrete cases meeting the hypotheses: the Examples of ProofsInt.v and of Cases.v. *)
Open Scope Z_scope.

Section Debug.
Variables (sg : bool) (w : Z).
Notation T := (chk sg w).
Notation fits := (fits sg w).
Notation dot_fits := (dot_fits sg w).

Theorem C76_debug_add_iff : forall d (A B C : mat Z (dimn d)),
  run_m (d_add d (im A : mat T _) (im B)) = Ok C <->
  forall i j, (i < dimn d)%nat -> (j < dimn d)%nat -> fits (mfun A i j + mfun B i j) /\ mfun C i j = mfun A i j + mfun B i j.
Proof. exact (c76_debug_add_iff sg w). Qed.
Print Assumptions C76_debug_add_iff.

Theorem C76_debug_sub_iff : forall d (A B C : mat Z (dimn d)),
  run_m (d_sub d (im A : mat T _) (im B)) = Ok C <->
  forall i j, (i < dimn d)%nat -> (j < dimn d)%nat -> fits (mfun A i j - mfun B i j) /\ mfun C i j = mfun A i j - mfun B i j.
Proof. exact (c76_debug_sub_iff sg w). Qed.
Print Assumptions C76_debug_sub_iff.

Theorem C76_debug_scale_iff : forall d (A C : mat Z (dimn d)) s,
  run_m (d_scale d (im A : mat T _) (Some s)) = Ok C <->
  forall i j, (i < dimn d)%nat -> (j < dimn d)%nat -> fits (mfun A i j * s) /\ mfun C i j = mfun A i j * s.
Proof. exact (c76_debug_scale_iff sg w). Qed.
Print Assumptions C76_debug_scale_iff.

Theorem C76_debug_neg_iff : forall d (A C : mat Z (dimn d)),
  run_m (d_neg d (im A : mat T _)) = Ok C <->
  forall i j, (i < dimn d)%nat -> (j < dimn d)%nat -> fits (- mfun A i j) /\ mfun C i j = - mfun A i j.
Proof. exact (c76_debug_neg_iff sg w). Qed.
Print Assumptions C76_debug_neg_iff.

(** the quotient truncates towards zero; a zero divisor panics (so does the
    quotient of the least number by -1, in release builds as well) *)
Theorem C76_div_iff : forall d (A C : mat Z (dimn d)) s,
  run_m (d_div d (im A : mat T _) (Some s)) = Ok C <->
  forall i j, (i < dimn d)%nat -> (j < dimn d)%nat ->
    (s <> 0 /\ fits (Z.quot (mfun A i j) s)) /\ mfun C i j = Z.quot (mfun A i j) s.
Proof. exact (c76_div_iff sg w). Qed.
Print Assumptions C76_div_iff.

(** scaling and dividing by the same number is the identity unless the scaling
    panics *)
Theorem C76_div_scale : forall d (A B : mat Z (dimn d)) s, s <> 0 ->
  (forall i j, (i < dimn d)%nat -> (j < dimn d)%nat -> fits (mfun A i j)) ->
  run_m (d_scale d (im A : mat T _) (Some s)) = Ok B -> run_m (d_div d (im B : mat T _) (Some s)) = Ok A.
Proof. exact (c76_div_scale sg w). Qed.
Print Assumptions C76_div_scale.

(** *** products *)
Theorem C76_debug_dot_iff : forall d (u v : arr Z (dimn d)) z,
  run_s (d_vdot d (iv u : arr T _) (iv v)) = Ok z <->
  dot_fits (dimn d) (fun k => vfun u k * vfun v k) /\ z = sumn (dimn d) (fun k => vfun u k * vfun v k).
Proof. exact (c76_debug_dot_iff sg w). Qed.
Print Assumptions C76_debug_dot_iff.

Theorem C76_debug_mul_v_iff : forall d (A : mat Z (dimn d)) (v u : arr Z (dimn d)),
  run_v (d_mul_v d (im A : mat T _) (iv v)) = Ok u <->
  forall i, (i < dimn d)%nat -> dot_fits (dimn d) (fun k => mfun A i k * vfun v k)
    /\ vfun u i = sumn (dimn d) (fun k => mfun A i k * vfun v k).
Proof. exact (c76_debug_mul_v_iff sg w). Qed.
Print Assumptions C76_debug_mul_v_iff.

(** [ord] is the order in which the code adds the terms *)
Theorem C76_debug_mul_iff : forall d (A B C : mat Z (dimn d)),
  run_m (d_mul d (im A : mat T _) (im B)) = Ok C <->
  forall i j, (i < dimn d)%nat -> (j < dimn d)%nat ->
    dot_fits (dimn d) (fun k => mfun A i (ord d i k) * mfun B (ord d i k) j)
    /\ mfun C i j = sumn (dimn d) (fun k => mfun A i k * mfun B k j).
Proof. exact (c76_debug_mul_iff sg w). Qed.
Print Assumptions C76_debug_mul_iff.

Theorem C76_debug_mul_bound : forall d (A B : mat Z (dimn d)), 0 < w ->
  (forall i j, (i < dimn d)%nat -> (j < dimn d)%nat -> fits (mfun A i j) /\ fits (mfun B i j)) ->
  (forall i j, (i < dimn d)%nat -> (j < dimn d)%nat ->
     sumn (dimn d) (fun k => Z.abs (mfun A i k * mfun B k j)) <= hi sg w) ->
  exists C, run_m (d_mul d (im A : mat T _) (im B)) = Ok C
    /\ forall i j, (i < dimn d)%nat -> (j < dimn d)%nat -> mfun C i j = sumn (dimn d) (fun k => mfun A i k * mfun B k j).
Proof. exact (c76_debug_mul_bound sg w). Qed.
Print Assumptions C76_debug_mul_bound.

End Debug.

Section Quats.
Variable w : Z.
Hypothesis Hw : 0 < w.
Notation T := (chk true w).

(** a quaternion result that is returned is the exact one *)
Theorem C76_debug_quat_exact : forall (a b c : Quaternion Z) (s : Z),
  (run_q (q_add (iq a : Quaternion T) (iq b)) = Ok c -> c = q_add a b)
  /\ (run_q (q_sub (iq a : Quaternion T) (iq b)) = Ok c -> c = q_sub a b)
  /\ (run_q (q_mul (iq a : Quaternion T) (iq b)) = Ok c -> c = q_mul a b)
  /\ (run_q (q_scale (iq a : Quaternion T) (Some s)) = Ok c -> c = q_scale a s)
  /\ (run_q (q_neg (iq a : Quaternion T)) = Ok c -> c = q_neg a)
  /\ (run_q (q_conj (iq a : Quaternion T)) = Ok c -> c = q_conj a).
Proof. exact (c76_debug_quat_exact w Hw). Qed.
Print Assumptions C76_debug_quat_exact.

(** a product of quaternions of small components does not panic *)
Theorem C76_debug_quat_bound : forall (a b : Quaternion Z) K L, 1 <= K -> 1 <= L -> qbound a K -> qbound b L ->
  4 * (K * L) <= hi true w -> run_q (q_mul (iq a : Quaternion T) (iq b)) = Ok (q_mul a b).
Proof. exact (c76_debug_quat_bound w Hw). Qed.
Print Assumptions C76_debug_quat_bound.

Theorem C76_debug_dual_exact : forall a b c : DualQuaternion Z,
  run_dq (dq_mul (idq a : DualQuaternion T) (idq b)) = Ok c -> c = dq_mul a b.
Proof. exact (c76_debug_dual_exact w Hw). Qed.
Print Assumptions C76_debug_dual_exact.

Theorem C76_debug_dual_bound : forall (a b : DualQuaternion Z) K L, 1 <= K -> 1 <= L ->
  qbound (q_real_ a) K -> qbound (q_dual_ a) K -> qbound (q_real_ b) L -> qbound (q_dual_ b) L ->
  8 * (K * L) <= hi true w -> run_dq (dq_mul (idq a : DualQuaternion T) (idq b)) = Ok (dq_mul a b).
Proof. exact (c76_debug_dual_bound w Hw). Qed.
Print Assumptions C76_debug_dual_bound.

(** rotating a vector *)
Theorem C76_debug_rotate : forall (a : Quaternion Z) (v u : V3 Z),
  run_v (n := 3) (q_mul_v (iq a : Quaternion T) (iv (n := 3) v)) = Ok u -> u = q_mul_v a v.
Proof. exact (c76_debug_rotate w Hw). Qed.
Print Assumptions C76_debug_rotate.

End Quats.

Section Release.
Variables (sg : bool) (w : Z).
Hypothesis Hm : 0 < 2 ^ w.
Notation W := (wint (2 ^ w)).
#[local] Instance W_Num : Num W := wint_Num (2 ^ w) Hm.
#[local] Instance W_Signed : Signed W := wint_Signed (2 ^ w) Hm.
Notation wr := (wr w Hm).
Notation wv := (wv w Hm).
Notation wm := (wm w Hm).
Notation wq := (wq w Hm).
Notation wdq := (wdq w Hm).

(** every entry of a product is the exact one, wrapped once *)
Theorem C76_release_mul : forall d (A B : mat Z (dimn d)) i j, (i < dimn d)%nat -> (j < dimn d)%nat ->
  rd sg w (mfun (d_mul d (wm A) (wm B)) i j) = wrap_to sg w (sumn (dimn d) (fun k => mfun A i k * mfun B k j)).
Proof. exact (c76_release_mul sg w Hm). Qed.
Print Assumptions C76_release_mul.

Theorem C76_release_mul_v : forall d (A : mat Z (dimn d)) (v : arr Z (dimn d)) i, (i < dimn d)%nat ->
  rd sg w (vfun (d_mul_v d (wm A) (wv v)) i) = wrap_to sg w (sumn (dimn d) (fun k => mfun A i k * vfun v k)).
Proof. exact (c76_release_mul_v sg w Hm). Qed.
Print Assumptions C76_release_mul_v.

Theorem C76_release_dot : forall d (u v : arr Z (dimn d)),
  rd sg w (d_vdot d (wv u) (wv v)) = wrap_to sg w (sumn (dimn d) (fun k => vfun u k * vfun v k)).
Proof. exact (c76_release_dot sg w Hm). Qed.
Print Assumptions C76_release_dot.

Theorem C76_release_linear : forall d (A B : mat Z (dimn d)) s i j, (i < dimn d)%nat -> (j < dimn d)%nat ->
  rd sg w (mfun (d_add d (wm A) (wm B)) i j) = wrap_to sg w (mfun A i j + mfun B i j)
  /\ rd sg w (mfun (d_sub d (wm A) (wm B)) i j) = wrap_to sg w (mfun A i j - mfun B i j)
  /\ rd sg w (mfun (d_neg d (wm A)) i j) = wrap_to sg w (- mfun A i j)
  /\ rd sg w (mfun (d_scale d (wm A) (wr s)) i j) = wrap_to sg w (mfun A i j * s).
Proof. exact (c76_release_linear sg w Hm). Qed.
Print Assumptions C76_release_linear.

(** quaternions: the exact components, wrapped once *)
Theorem C76_release_quat : forall a b : Quaternion Z,
  q_mul (wq a) (wq b) = wq (q_mul a b) /\ q_add (wq a) (wq b) = wq (q_add a b)
  /\ q_sub (wq a) (wq b) = wq (q_sub a b) /\ q_conj (wq a) = wq (q_conj a).
Proof. exact (c76_release_quat w Hm). Qed.
Print Assumptions C76_release_quat.

Theorem C76_release_dual : forall a b : DualQuaternion Z, dq_mul (wdq a) (wdq b) = wdq (dq_mul a b).
Proof. exact (c76_release_dual w Hm). Qed.
Print Assumptions C76_release_dual.

(** a debug build that does not panic and a release build compute the same *)
Theorem C76_debug_release : forall d (A B C : mat Z (dimn d)),
  run_m (d_mul d (im A : mat (chk sg w) _) (im B)) = Ok C -> d_mul d (wm A) (wm B) = wm C.
Proof. exact (c76_debug_release sg w Hm). Qed.
Print Assumptions C76_debug_release.

(** wrapping arithmetic obeys the ring laws, whatever overflows on the way *)
Theorem C76_release_ring : forall d (A B C : mat W (dimn d)),
  d_mul d (d_mul d A B) C = d_mul d A (d_mul d B C)
  /\ d_mul d A (d_add d B C) = d_add d (d_mul d A B) (d_mul d A C)
  /\ d_sub d (d_add d A B) B = A.
Proof. exact (c76_release_ring w Hm). Qed.
Print Assumptions C76_release_ring.

End Release.
