(** * PropsSlices: slice helpers (C21, C22, C24) *)

From Coq Require Import List Arith Lia Bool ZArith Reals Lra.
From Verif Require Import Base Scalar Slices RingDet Spec LoopFacts InstZ InstR.
From Verif Require Import ProofsSlices.
(** Concrete cases meeting the hypotheses: the Examples of ProofsSlices.v and of Cases.v. *)
Import ListNotations.
Local Open Scope nat_scope.

Section MaxMin.
Context {T : Type} {oT : POrd T}.

(** For any type and comparison (even NaN): the positions point at the values. *)
Theorem C21_positions : forall (l : list T), l <> [] ->
  exists mm, find_max_min l = Ok mm
    /\ nth_error l (snd (max_ mm)) = Some (fst (max_ mm))
    /\ nth_error l (snd (min_ mm)) = Some (fst (min_ mm)).
Proof. exact c21_positions. Qed.
Print Assumptions C21_positions.

Theorem C21_empty_panics : find_max_min (@nil T) = Panic.
Proof. exact c21_empty_panics. Qed.
Print Assumptions C21_empty_panics.

Theorem C21_extremal : OrdLaws T -> forall (l : list T), l <> [] ->
  exists max max_pos min min_pos, find_max_min l = Ok (mkMaxMin (max, max_pos) (min, min_pos))
    (* they occur at the positions *)
    /\ nth_error l max_pos = Some max /\ nth_error l min_pos = Some min
    (* nothing is larger / smaller *)
    /\ (forall x, In x l -> ltb max x = false /\ ltb x min = false)
    (* and everything before is strictly smaller / larger *)
    /\ (forall k x, nth_error l k = Some x -> k < max_pos -> ltb x max = true)
    /\ (forall k x, nth_error l k = Some x -> k < min_pos -> ltb min x = true).
Proof. exact c21_extremal. Qed.
Print Assumptions C21_extremal.

End MaxMin.

Section Norms.
Context {T : Type} {nT : Num T} {sT : Signed T} {oT : POrd T}.

Theorem C22_norm_l : forall l : list T,
  norm_l l = sumn (length l) (fun i => nth i (map abs l) zero).
Proof. exact c22_norm_l. Qed.
Print Assumptions C22_norm_l.

(** [norm_inf] is the largest element ... *)
Theorem C22_norm_inf_is_max : OrdLaws T -> forall l : list T, l <> [] ->
  exists m, norm_inf l = Ok m /\ In m l /\ forall x, In x l -> ltb m x = false.
Proof. exact c22_norm_inf_is_max. Qed.
Print Assumptions C22_norm_inf_is_max.

(** ... hence the largest absolute value when no element is negative. Missing for
    the full C22: slices with a negative element, where it is false (below). *)
Theorem C22_norm_inf_partial : OrdLaws T -> forall l : list T, l <> [] ->
  (forall x, In x l -> abs x = x) ->
  exists m, norm_inf l = Ok m /\ In m (map abs l) /\ forall x, In x (map abs l) -> ltb m x = false.
Proof. exact c22_norm_inf_partial. Qed.
Print Assumptions C22_norm_inf_partial.

End Norms.

Theorem C22_norm_inf_refuted : exists (l : list Z) m,
  norm_inf l = Ok m /\ ~ (forall x, In x l -> (Z.abs x <= m)%Z).
Proof. exact c22_norm_inf_refuted. Qed.
Print Assumptions C22_norm_inf_refuted.

(** it can even be negative on a non-zero vector *)
Theorem C22_norm_inf_negative_refuted : exists (l : list Z) m,
  norm_inf l = Ok m /\ (m < 0)%Z.
Proof. exact c22_norm_inf_negative_refuted. Qed.
Print Assumptions C22_norm_inf_negative_refuted.

Section Compare.
Context {T : Type} {nT : Num T} {sT : Signed T} {oT : POrd T} {fT : Float T}.

(** Missing for the full C24: [zip] truncates, so a longer slice is accepted
    (refuted below); with equal lengths the helper decides what it claims. *)
Theorem C24_compare_vecs_partial : forall (a b : list T) eps, length a = length b ->
  compare_vecs a b eps = true <->
  forall i, i < length a -> nearly_equal (nth i a zero) (nth i b zero) eps = true.
Proof. exact c24_compare_vecs_partial. Qed.
Print Assumptions C24_compare_vecs_partial.

(** what it computes in general *)
Theorem C24_compare_vecs_prefix : forall (a b : list T) eps,
  compare_vecs a b eps = true <->
  forall i, i < length a -> i < length b -> nearly_equal (nth i a zero) (nth i b zero) eps = true.
Proof. exact c24_compare_vecs_prefix. Qed.
Print Assumptions C24_compare_vecs_prefix.

Theorem C24_compare_vecs_refuted : exists (a b : list T), length a <> length b /\
  forall eps, compare_vecs a b eps = true.
Proof. exact c24_compare_vecs_refuted. Qed.
Print Assumptions C24_compare_vecs_refuted.

Theorem C24_check_elements : forall (v : list T) tol,
  check_elements v tol = true <-> exists x, In x v /\ nearly_equal x zero tol = true.
Proof. exact c24_check_elements. Qed.
Print Assumptions C24_check_elements.

End Compare.

Section CompareR.
Context {K : RConsts} (OK : RConstsOk K).
Local Open Scope R_scope.

Theorem C24_nearly_zero_R : forall x tol : R,
  nearly_equal x 0 tol = true <-> x = 0 \/ Rabs x < tol.
Proof. exact c24_nearly_zero_R. Qed.
Print Assumptions C24_nearly_zero_R.

Theorem C24_compare_floats_R : forall a b t : R, compare_floats a b t = true <-> Rabs (a - b) < t.
Proof. exact c24_compare_floats_R. Qed.
Print Assumptions C24_compare_floats_R.

Theorem C24_check_elements_R : forall (v : list R) tol,
  check_elements v tol = true <-> exists x, In x v /\ (x = 0 \/ Rabs x < tol).
Proof. exact c24_check_elements_R. Qed.
Print Assumptions C24_check_elements_R.

End CompareR.
