(** * Scalar: the numeric traits the code is generic in

    The Rust code is generic in [T] with bounds from the [num] crate
    ([Num], [Signed], [Float], [FloatConst]) and [PartialOrd]. Each class below
    lists the operations of those traits that the code uses; the model is
    written over the classes and instantiated later (commutative rings, [Z],
    [R], IEEE floats, ...). *)

(** [num::Num] (with [Zero], [One] and [PartialEq]). *)
Class Num (T : Type) := {
  zero : T;
  one : T;
  add : T -> T -> T;
  sub : T -> T -> T;
  mul : T -> T -> T;
  div : T -> T -> T;
  eqb : T -> T -> bool;
}.

(** [num::Signed] / [Neg]; [abs] is also [Float::abs]. *)
Class Signed (T : Type) := {
  neg : T -> T;
  abs : T -> T;
}.

(** [PartialOrd]: [a < b] and [a <= b]; [a > b] is [b < a] and [a >= b] is
    [b <= a], as for Rust's floats and integers. *)
Class POrd (T : Type) := {
  ltb : T -> T -> bool;
  leb : T -> T -> bool;
}.

(** [num::Float] and [FloatConst] beyond the above. [lit_*] are the literals
    converted with [T::from(..).unwrap()] in the source; their conversion never
    fails for f32/f64. *)
Class Float (T : Type) := {
  fsqrt : T -> T;
  fsin : T -> T;
  fcos : T -> T;
  ftan : T -> T;
  facos : T -> T;
  fatan2 : T -> T -> T;
  fexp : T -> T;
  fln : T -> T;
  fmin : T -> T -> T;
  epsilon : T;
  max_value : T;
  min_value : T;
  infinity : T;
  PI_ : T;            (* FloatConst::PI *)
  FRAC_PI_2 : T;      (* FloatConst::FRAC_PI_2 *)
  lit_2 : T;          (* T::from(2.0), T::from(2) *)
  lit_4 : T;          (* T::from(4) *)
  lit_1em40 : T;      (* T::from(1e-40) *)
  lit_1em6 : T;       (* T::from(1e-6) *)
  lit_1em3 : T;       (* T::from(0.001) *)
}.

Declare Scope sc_scope.
Delimit Scope sc_scope with sc.
Notation "x + y" := (add x y) : sc_scope.
Notation "x - y" := (sub x y) : sc_scope.
Notation "x * y" := (mul x y) : sc_scope.
Notation "x / y" := (div x y) : sc_scope.
Notation "- x" := (neg x) : sc_scope.
Notation "x <? y" := (ltb x y) (at level 70) : sc_scope.
Notation "x <=? y" := (leb x y) (at level 70) : sc_scope.
Notation "x =? y" := (eqb x y) (at level 70) : sc_scope.

(** [Float::recip]: documented as [1/x]. *)
Definition recip {T} `{Num T} (x : T) : T := div one x.

(** [Float::sin_cos]. *)
Definition sin_cos {T} `{Float T} (x : T) : T * T := (fsin x, fcos x).
