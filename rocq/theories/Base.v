(** * Base: panics, loops and fixed-size arrays

    Shared vocabulary of the model. Nothing here models one particular Rust
    function; it fixes how Rust's panics, [for] loops and arrays are read. *)

From Coq Require Import List Arith Lia Bool.
Import ListNotations.

(** ** Panics

    A call that may panic returns [outcome A]: [Ok a] for a normal return,
    [Panic] for any panic (failed [assert!], [unwrap]/[expect] of nothing,
    explicit [panic!], index out of bounds). *)
Inductive outcome (A : Type) : Type :=
| Ok (a : A)
| Panic.
Arguments Ok {A} a.
Arguments Panic {A}.

Definition bind {A B} (x : outcome A) (f : A -> outcome B) : outcome B :=
  match x with Ok a => f a | Panic => Panic end.

Notation "x <- e ;; k" := (bind e (fun x => k))
  (at level 61, e at next level, right associativity).
Notation "' p <- e ;; k" := (bind e (fun p => k))
  (at level 61, p pattern, e at next level, right associativity).

(** [Option::unwrap] / [Option::expect]. *)
Definition unwrap {A} (x : option A) : outcome A :=
  match x with Some a => Ok a | None => Panic end.

(** ** Loops

    [for_ lo hi body s] is [for i in lo..hi { s = body(i, s) }]: the indices
    [lo, lo+1, ..., hi-1] in this order (no iteration when [hi <= lo]). *)
Fixpoint for_from {S : Type} (i k : nat) (body : nat -> S -> outcome S) (s : S)
  : outcome S :=
  match k with
  | O => Ok s
  | S k' => bind (body i s) (for_from (Datatypes.S i) k' body)
  end.

Definition for_ {S : Type} (lo hi : nat) (s : S)
  (body : nat -> S -> outcome S) : outcome S :=
  for_from lo (hi - lo) body s.

(** [for x in list.iter()] with an accumulator. *)
Fixpoint for_in {A S : Type} (l : list A) (s : S)
  (body : A -> S -> outcome S) : outcome S :=
  match l with
  | [] => Ok s
  | a :: l' => bind (body a s) (fun s' => for_in l' s' body)
  end.

(** ** Arrays

    [arr T n] is Rust's [[T; n]]; the newtypes [V2<T>([T; 2])] ... are read as
    the array they wrap. *)
Fixpoint arr (T : Type) (n : nat) : Type :=
  match n with
  | O => unit
  | S n' => (T * arr T n')%type
  end.

(** Array literals [[a; b; c]]. *)
Declare Scope arr_scope.
Delimit Scope arr_scope with arr.
Definition acons {T n} (x : T) (v : arr T n) : arr T (S n) := (x, v).
Definition anil {T} : arr T 0 := tt.
Notation "[| x ; .. ; y |]" := (acons x .. (acons y anil) ..) (at level 0) : arr_scope.
Open Scope arr_scope.

(** Constant indices. The type forces the index to be in range, like rustc's
    unconditional-panic lint on constant indices of arrays. *)
Definition ahd {T n} (v : arr T (S n)) : T := fst v.
Definition atl {T n} (v : arr T (S n)) : arr T n := snd v.
Definition ix0 {T n} (v : arr T (S n)) : T := ahd v.
Definition ix1 {T n} (v : arr T (S (S n))) : T := ahd (atl v).
Definition ix2 {T n} (v : arr T (S (S (S n)))) : T := ahd (atl (atl v)).
Definition ix3 {T n} (v : arr T (S (S (S (S n))))) : T := ahd (atl (atl (atl v))).
Definition ix4 {T n} (v : arr T (S (S (S (S (S n)))))) : T :=
  ahd (atl (atl (atl (atl v)))).
Definition ix5 {T n} (v : arr T (S (S (S (S (S (S n))))))) : T :=
  ahd (atl (atl (atl (atl (atl v))))).

Notation "v .[ 0 ]" := (ix0 v) (at level 2, left associativity, format "v .[ 0 ]").
Notation "v .[ 1 ]" := (ix1 v) (at level 2, left associativity, format "v .[ 1 ]").
Notation "v .[ 2 ]" := (ix2 v) (at level 2, left associativity, format "v .[ 2 ]").
Notation "v .[ 3 ]" := (ix3 v) (at level 2, left associativity, format "v .[ 3 ]").
Notation "v .[ 4 ]" := (ix4 v) (at level 2, left associativity, format "v .[ 4 ]").
Notation "v .[ 5 ]" := (ix5 v) (at level 2, left associativity, format "v .[ 5 ]").

(** Computed indices: [v[i]] and [v[i] = x], panicking out of range. *)
Fixpoint aget {T n} : arr T n -> nat -> outcome T :=
  match n with
  | O => fun _ _ => Panic
  | S n' => fun v i =>
      match i with
      | O => Ok (fst v)
      | S j => aget (snd v) j
      end
  end.

Fixpoint aset {T n} : arr T n -> nat -> T -> outcome (arr T n) :=
  match n with
  | O => fun _ _ _ => Panic
  | S n' => fun v i x =>
      match i with
      | O => Ok (x, snd v)
      | S j => bind (aset (snd v) j x) (fun w => Ok (fst v, w))
      end
  end.

(** [[x; n]]: an array with [n] copies of [x]. *)
Fixpoint amake {T} (n : nat) (x : T) : arr T n :=
  match n with
  | O => tt
  | S n' => (x, amake n' x)
  end.

(** The array seen as a slice (deref coercion to [&[T]], [.iter()]). *)
Fixpoint alist {T n} : arr T n -> list T :=
  match n with
  | O => fun _ => []
  | S n' => fun v => fst v :: alist (snd v)
  end.

(** The array whose cells are the results of [f] (used for [iter_mut] updates). *)
Fixpoint amap {A B n} (f : A -> B) : arr A n -> arr B n :=
  match n with
  | O => fun _ => tt
  | S n' => fun v => (f (fst v), amap f (snd v))
  end.

(** Derived [PartialEq] on arrays: cell by cell, left to right. *)
Fixpoint aeqb {T n} (e : T -> T -> bool) : arr T n -> arr T n -> bool :=
  match n with
  | O => fun _ _ => true
  | S n' => fun v w => e (fst v) (fst w) && aeqb e (snd v) (snd w)
  end.

(** Square matrices: Rust's [[[T; n]; n]] (rows first). *)
Notation mat T n := (arr (arr T n) n).

(** [m[(i, j)]] is [m.0[i][j]] (the [Index<(usize, usize)>] impls:
    matrix2x2.rs:500-506, matrix3x3.rs:610-616, matrix4x4.rs:781-787,
    matrix5x5.rs:1042-1048, matrix6x6.rs:1873-1879). *)
Definition mget {T n} (m : mat T n) (i j : nat) : outcome T :=
  row <- aget m i ;; aget row j.

(** [m[(i, j)] = x] (the [IndexMut<(usize, usize)>] impls:
    matrix2x2.rs:508-513, matrix3x3.rs:618-623, matrix4x4.rs:789-794,
    matrix5x5.rs:1050-1055, matrix6x6.rs:1881-1886). *)
Definition mset {T n} (m : mat T n) (i j : nat) (x : T) : outcome (mat T n) :=
  row <- aget m i ;; row' <- aset row j x ;; aset m i row'.

(** Newtypes [Vn<T>([T; n])] and [Mnn<T>([[T; n]; n])] (vector2.rs:43-44 ...
    vector6.rs:44-45, matrix2x2.rs ... matrix6x6.rs:47-48), read as the array
    they wrap. *)
Notation V2 T := (arr T 2).
Notation V3 T := (arr T 3).
Notation V4 T := (arr T 4).
Notation V5 T := (arr T 5).
Notation V6 T := (arr T 6).
Notation M22 T := (mat T 2).
Notation M33 T := (mat T 3).
Notation M44 T := (mat T 4).
Notation M55 T := (mat T 5).
Notation M66 T := (mat T 6).
