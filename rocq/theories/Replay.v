(** * Replay: running the model on f32, f64 and i32 values

    Used by the Replay*.v files, which run the repository's own unit tests on the
    model. These are tests, not proofs. The arithmetic is that of the float and
    integer instances of the theorems (InstF.v, InstI.v); the transcendental
    functions, oracles in InstF.v, are computed here in 200-bit fixed point and
    rounded; a libm may differ from that in the last bit. *)

From Coq Require Import ZArith List Bool.
From Flocq Require Import Core IEEE754.BinarySingleNaN.
From Verif Require Import Base Scalar InstF InstI Slices Quat.
Import ListNotations.
Open Scope Z_scope.

(** ** fixed point: [x] stands for [x / 2^P] *)
Definition P : Z := 200.
Definition fx1 : Z := Z.shiftl 1 P.
Definition fmul (a b : Z) : Z := Z.shiftr (a * b) P.
Definition fdiv (a b : Z) : Z := Z.shiftl a P / b.

(** pi * 2^200, truncated *)
Definition fxpi : Z := 5048344754617993871973410141242436836214643421488662971535368.
Definition fxln2 : Z := 1113844574712631719546256151097547306333272293549090750737802.

(** sum over k of the terms t, t*x/d1, t*x/(d1 d2), ... with divisors [d k] *)
Fixpoint series (n : nat) (k : Z) (d : Z -> Z) (x t acc : Z) : Z :=
  match n with
  | O => acc
  | S n' => let t' := fmul t x / d k in series n' (k + 1) d x t' (acc + t')
  end.

Definition fx_exp_small (x : Z) : Z := series 60 1 (fun k => k) x fx1 fx1.
Definition fx_sin (x : Z) : Z :=
  let y := (x + fxpi) mod (2 * fxpi) - fxpi in
  series 50 1 (fun k => - (2 * k * (2 * k + 1))) (fmul y y) y y.
Definition fx_cos (x : Z) : Z :=
  let y := (x + fxpi) mod (2 * fxpi) - fxpi in
  series 50 1 (fun k => - (2 * k * (2 * k - 1))) (fmul y y) fx1 fx1.
Definition fx_sqrt (x : Z) : Z := Z.sqrt (Z.shiftl x P).

(** sum of (-1)^k x^(2k+1)/(2k+1), sign s = -1 for atan and 1 for atanh *)
Fixpoint odd_series (n : nat) (k s x2 p acc : Z) : Z :=
  match n with
  | O => acc
  | S n' => let p' := s * fmul p x2 in odd_series n' (k + 2) s x2 p' (acc + p' / k)
  end.

Definition fx_half_atan (x : Z) : Z := fdiv x (fx1 + fx_sqrt (fx1 + fmul x x)).
(** atan for 0 <= x <= 1, by halving the angle four times *)
Definition fx_atan1 (x : Z) : Z :=
  let y := fx_half_atan (fx_half_atan (fx_half_atan (fx_half_atan x))) in
  16 * odd_series 30 3 (-1) (fmul y y) y y.
Definition fx_atan (x : Z) : Z :=
  let a := Z.abs x in
  let r := if a <=? fx1 then fx_atan1 a else fxpi / 2 - fx_atan1 (fdiv fx1 a) in
  if x <? 0 then - r else r.
Definition fx_atan2 (y x : Z) : Z :=
  if 0 <? x then fx_atan (fdiv y x)
  else if x <? 0 then (if 0 <=? y then fx_atan (fdiv y x) + fxpi else fx_atan (fdiv y x) - fxpi)
  else if 0 <? y then fxpi / 2 else if y <? 0 then - (fxpi / 2) else 0.
Definition fx_ln (x : Z) : Z :=
  let k := Z.log2 x - P in
  let m := if 0 <=? k then Z.shiftr x k else Z.shiftl x (- k) in
  let t := fdiv (m - fx1) (m + fx1) in
  k * fxln2 + 2 * odd_series 70 3 1 (fmul t t) t t.

Section Oracle.
Context {prec emax : Z} {Hp : Prec_gt_0 prec} {He : Prec_lt_emax prec emax}.
Notation fl := (binary_float prec emax).

(** the float nearest to m * 2^e, and to a fixed-point number *)
Definition lit (m e : Z) : fl := binary_normalize prec emax Hp He mode_NE m e false.
Definition of_fx (x : Z) : fl := lit x (- P).
Definition to_fx (x : fl) : Z :=
  match x with
  | B754_finite s m e _ => (if s then -1 else 1) * Z.shiftl (Zpos m) (e + P)
  | _ => 0
  end.

Definition fin1 (f : Z -> fl) (x : fl) : fl := if is_finite x then f (to_fx x) else B754_nan.
Definition fzero (x : fl) : bool := match x with B754_zero _ => true | _ => false end.

Definition t_sin (x : fl) : fl := if fzero x then x else fin1 (fun z => of_fx (fx_sin z)) x.
Definition t_cos : fl -> fl := fin1 (fun z => of_fx (fx_cos z)).
Definition t_tan (x : fl) : fl :=
  if fzero x then x else fin1 (fun z => of_fx (fdiv (fx_sin z) (fx_cos z))) x.
Definition t_acos : fl -> fl :=
  fin1 (fun z => if fx1 <? Z.abs z then B754_nan else of_fx (fx_atan2 (fx_sqrt (fx1 - fmul z z)) z)).
Definition t_atan2 (y x : fl) : fl :=
  if is_finite y && is_finite x then
    if fzero y then
      if Bsign x then (if Bsign y then of_fx (- fxpi) else of_fx fxpi) else y
    else of_fx (fx_atan2 (to_fx y) (to_fx x))
  else B754_nan.
Definition t_exp : fl -> fl :=
  fin1 (fun z => let n := z / fxln2 in lit (fx_exp_small (z - n * fxln2)) (n - P)).
Definition t_ln (x : fl) : fl :=
  if fzero x then B754_infinity true
  else if Bsign x then B754_nan else fin1 (fun z => of_fx (fx_ln z)) x.
End Oracle.

#[export] Instance p24 : Prec_gt_0 24. Proof. reflexivity. Qed.
#[export] Instance e24 : Prec_lt_emax 24 128. Proof. reflexivity. Qed.
#[export] Instance p53 : Prec_gt_0 53. Proof. reflexivity. Qed.
#[export] Instance e53 : Prec_lt_emax 53 1024. Proof. reflexivity. Qed.

Notation f32 := (binary_float 24 128).
Notation f64 := (binary_float 53 1024).
Notation i32 := (chk true 32).

Definition orc {prec emax} {Hp : Prec_gt_0 prec} {He : Prec_lt_emax prec emax} (k40 k6 k3 : binary_float prec emax)
  : FOracle (binary_float prec emax) :=
  {| o_sin := t_sin; o_cos := t_cos; o_tan := t_tan; o_acos := t_acos; o_atan2 := t_atan2;
     o_exp := t_exp; o_ln := t_ln; o_PI := of_fx fxpi; o_FRAC_PI_2 := of_fx (fxpi / 2);
     o_1em40 := k40; o_1em6 := k6; o_1em3 := k3 |}.
#[export] Instance O32 : FOracle f32 := orc (lit 35681 (-148)) (lit 8796093 (-43)) (lit 8589935 (-33)).
#[export] Instance O64 : FOracle f64 := orc (lit 1225996432692711 (-183)) (lit 4722366482869645 (-72)) (lit 1152921504606847 (-60)).

Definition int (z : Z) : i32 := Some z.

(** [to_radians]: multiplication by the constant PI / 180 *)
Definition to_radians {prec emax} {Hp : Prec_gt_0 prec} {He : Prec_lt_emax prec emax} (x : binary_float prec emax)
  : binary_float prec emax :=
  Bmult mode_NE x (Bdiv mode_NE (of_fx fxpi) (lit 180 0)).

(** ** assertions: a test returns [Ok true] when every assertion holds *)
Fixpoint list_eq {T} (e : T -> T -> bool) (a b : list T) : bool :=
  match a, b with
  | [], [] => true
  | x :: a', y :: b' => e x y && list_eq e a' b'
  | _, _ => false
  end.
Definition arr_eq {T} (e : T -> T -> bool) {n} (a b : arr T n) : bool := list_eq e (alist a) (alist b).
Definition opt_eq {T} (e : T -> T -> bool) (a b : option T) : bool :=
  match a, b with Some x, Some y => e x y | None, None => true | _, _ => false end.
Definition mm_eq {T} `{Num T} (a b : @MaxMin T) : bool :=
  let e p q := eqb (fst p) (fst q) && Nat.eqb (snd p) (snd q) in
  e (max_ a) (max_ b) && e (min_ a) (min_ b).
Fixpoint all_ok {A} (l : list A) (f : A -> outcome bool) : outcome bool :=
  match l with
  | [] => Ok true
  | x :: l' => r <- f x ;; if (r : bool) then all_ok l' f else Ok false
  end.
