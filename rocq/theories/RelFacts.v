(** * RelFacts: determinants preserve every relation between three number types
    that additions, subtractions and multiplications preserve *)

From Coq Require Import List Arith Lia ZArith.
From Verif Require Import Base Scalar Vec Mat2 Mat3 Mat4 Mat5 Mat6 MatLoops MatOps RingDet Spec.
Section Rel.
Context {T1 T2 T3 : Type} {N1 : Num T1} {N2 : Num T2} {N3 : Num T3} (rel : T1 -> T2 -> T3 -> Prop).
Hypothesis rel_add : forall a a' b b' c c', rel a b c -> rel a' b' c' -> rel (add a a') (add b b') (add c c').
Hypothesis rel_sub : forall a a' b b' c c', rel a b c -> rel a' b' c' -> rel (sub a a') (sub b b') (sub c c').
Hypothesis rel_mul : forall a a' b b' c c', rel a b c -> rel a' b' c' -> rel (mul a a') (mul b b') (mul c c').

Ltac rel_go := lazymatch goal with
  | |- rel (add _ _) _ _ => refine (rel_add _ _ _ _ _ _ _ _); rel_go
  | |- rel (sub _ _) _ _ => refine (rel_sub _ _ _ _ _ _ _ _); rel_go
  | |- rel (mul _ _) _ _ => refine (rel_mul _ _ _ _ _ _ _ _); rel_go
  | |- _ => assumption
  end.

Fixpoint rel_row n : arr T1 n -> arr T2 n -> arr T3 n -> Prop :=
  match n with O => fun _ _ _ => True | S n' => fun a b c => rel (fst a) (fst b) (fst c) /\ rel_row n' (snd a) (snd b) (snd c) end.
Fixpoint rel_mat n m : arr (arr T1 n) m -> arr (arr T2 n) m -> arr (arr T3 n) m -> Prop :=
  match m with O => fun _ _ _ => True | S m' => fun a b c => rel_row n (fst a) (fst b) (fst c) /\ rel_mat n m' (snd a) (snd b) (snd c) end.

Ltac det_go d x n b := 
  cbn in x, n, b; 
  repeat match goal with H : (_ * _)%type |- _ => destruct H end;
  repeat match goal with H : unit |- _ => destruct H end;
  let H := fresh in intros H; cbn in H; 
  repeat match goal with H : _ /\ _ |- _ => destruct H end;
  lazy beta iota zeta delta [d_det m22_det m33_det m44_det m55_det m66_det ix0 ix1 ix2 ix3 ix4 ix5 ahd atl fst snd].

Lemma rel_det d (x : mat T1 (dimn d)) (n : mat T2 (dimn d)) (b : mat T3 (dimn d)) :
  rel_mat _ _ x n b -> rel (d_det d x) (d_det d n) (d_det d b).
Proof.
  destruct d.
  1: (det_go m22_det x n b; rel_go).
  1: (det_go m33_det x n b; rel_go).
  1: (det_go m44_det x n b; rel_go).
  1: (det_go m55_det x n b; rel_go).
  1: (det_go m66_det x n b).
  rel_go.
Qed.
End Rel.
