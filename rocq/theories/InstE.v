(** * InstE: real arithmetic with an error value

    The scalar classes on [option R]. [None] is the result of an operation that
    real arithmetic leaves undefined (division by zero, square root of a negative
    number, logarithm of a non-positive one, arc cosine outside [-1, 1], tangent
    at a pole); it behaves like a NaN: operations propagate it, comparisons with
    it are false, [min] ignores it. A function that maps defined arguments to the
    same result here as in InstR.v used no undefined operation on its way. *)

From Coq Require Import Reals Lra Bool List Arith Lia.
From Verif Require Import Base Scalar Vec Slices Mat2 Mat3 Mat4 Mat5 Mat6 MatLoops MatOps Quat Transf DualQuat
  RingDet Spec InstR RFacts.
Local Open Scope R_scope.

Definition E := option R.

Definition e1 (f : R -> R) (x : E) : E := match x with Some a => Some (f a) | None => None end.
Definition e2 (f : R -> R -> R) (x y : E) : E :=
  match x, y with Some a, Some b => Some (f a b) | _, _ => None end.
Definition eb (f : R -> R -> bool) (x y : E) : bool :=
  match x, y with Some a, Some b => f a b | _, _ => false end.

Definition e_div (x y : E) : E :=
  match x, y with
  | Some a, Some b => if Req_EM_T b 0 then None else Some (a / b)
  | _, _ => None
  end.
Definition e_sqrt (x : E) : E :=
  match x with Some a => if Rle_dec 0 a then Some (sqrt a) else None | None => None end.
Definition e_ln (x : E) : E :=
  match x with Some a => if Rlt_dec 0 a then Some (ln a) else None | None => None end.
Definition e_acos (x : E) : E :=
  match x with
  | Some a => if Rle_dec (-1) a then if Rle_dec a 1 then Some (acos a) else None else None
  | None => None
  end.
Definition e_tan (x : E) : E :=
  match x with Some a => if Req_EM_T (cos a) 0 then None else Some (tan a) | None => None end.
Definition e_min (x y : E) : E :=
  match x, y with
  | Some a, Some b => Some (Rmin a b)
  | Some a, None => Some a
  | None, _ => y
  end.

Global Instance E_Num : Num E :=
  {| zero := Some 0; one := Some 1; add := e2 Rplus; sub := e2 Rminus; mul := e2 Rmult;
     div := e_div; eqb := eb Reqb |}.
Global Instance E_Signed : Signed E := {| neg := e1 Ropp; abs := e1 Rabs |}.
Global Instance E_POrd : POrd E := {| ltb := eb Rltb; leb := eb Rleb |}.
Global Instance E_Float (K : RConsts) : Float E :=
  {| fsqrt := e_sqrt; fsin := e1 sin; fcos := e1 cos; ftan := e_tan; facos := e_acos;
     fatan2 := e2 Ratan2; fexp := e1 exp; fln := e_ln; fmin := e_min;
     epsilon := Some r_eps; max_value := Some r_max; min_value := Some (- r_max);
     infinity := Some r_inf;
     PI_ := Some PI; FRAC_PI_2 := Some (PI / 2); lit_2 := Some 2; lit_4 := Some 4;
     lit_1em40 := Some r_1em40; lit_1em6 := Some r_1em6; lit_1em3 := Some r_1em3 |}.

(** defined inputs *)
Definition up_v {n} (v : arr R n) : arr E n := amap Some v.
Definition up_m {n} (A : mat R n) : mat E n := amap (amap Some) A.
Definition up_q (a : Quaternion R) : Quaternion E := mkQ (Some (q0 a)) (up_v (n := 3) (q a)) (normalized a).
Definition up_dq (a : DualQuaternion R) : DualQuaternion E :=
  mkDQ (up_q (q_real_ a)) (up_q (q_dual_ a)) (dq_normalized a).
Definition up_o {A B} (f : A -> B) (x : outcome A) : outcome B :=
  match x with Ok a => Ok (f a) | Panic => Panic end.

(** ** The partial operations where they are defined *)
Lemma e_div_ok a b : b <> 0 -> div (Some a) (Some b) = Some (a / b).
Proof. intros. cbn. destruct (Req_EM_T b 0); [easy|reflexivity]. Qed.
Lemma e_recip_ok b : b <> 0 -> recip (Some b) = Some (1 / b).
Proof. intros. apply e_div_ok; auto. Qed.
Lemma e_sqrt_ok {K : RConsts} a : 0 <= a -> fsqrt (Some a) = Some (sqrt a).
Proof. intros. cbn. destruct (Rle_dec 0 a); [reflexivity|easy]. Qed.
Lemma e_ln_ok {K : RConsts} a : 0 < a -> fln (Some a) = Some (ln a).
Proof. intros. cbn. destruct (Rlt_dec 0 a); [reflexivity|easy]. Qed.
Lemma e_acos_ok {K : RConsts} a : -1 <= a <= 1 -> facos (Some a) = Some (acos a).
Proof. intros. cbn. destruct (Rle_dec (-1) a); [ |lra]. destruct (Rle_dec a 1); [reflexivity|lra]. Qed.
Lemma e_tan_ok {K : RConsts} a : cos a <> 0 -> ftan (Some a) = Some (tan a).
Proof. intros. cbn. destruct (Req_EM_T (cos a) 0); [easy|reflexivity]. Qed.
