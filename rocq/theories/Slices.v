(** * Slices: slices_methods.rs and the comparison helpers of utils.rs

    Slices [&[T]] are read as lists, except the in-place [normalize], which is
    modelled on the array [arr T n] the slice points to (any length [n]). *)

From Coq Require Import List Bool.
From Verif Require Import Base Scalar.
Import ListNotations.
Open Scope sc_scope.

Section Slices.
Context {T : Type} {nT : Num T} {sT : Signed T} {oT : POrd T} {fT : Float T}.

(** [iter().sum()]: a left fold of [+] from zero. (Recent Rust versions start
    float sums from -0.0; this differs at most in the sign of a zero result.) *)
Definition iter_sum (l : list T) : T := fold_left add l zero.

(** slices_methods.rs:35-39, [MaxMin] *)
Record MaxMin := mkMaxMin { max_ : T * nat; min_ : T * nat }.

(** slices_methods.rs:42-64, [find_max_min]. [slice[0]] panics on an empty
    slice; the loop is [iter().enumerate().skip(1)]. *)
Definition find_max_min (slice : list T) : outcome MaxMin :=
  match slice with
  | [] => Panic
  | s0 :: rest =>
      ' (max, min, max_pos, min_pos) <-
        for_in (combine (seq 1 (length rest)) rest) (s0, s0, 0, 0)
          (fun ie st =>
             let ' (index, element) := ie in
             let ' (max, min, max_pos, min_pos) := st in
             let ' (min, min_pos) :=
               if element <? min then (element, index) else (min, min_pos) in
             let ' (max, max_pos) :=
               if max <? element then (element, index) else (max, max_pos) in
             Ok (max, min, max_pos, min_pos)) ;;
      Ok (mkMaxMin (max, max_pos) (min, min_pos))
  end.

(** slices_methods.rs:67-70, [norm_inf]; also the methods [Vn::norm_inf]
    (vector2.rs:72-74, vector3.rs:104-106, vector4.rs:82-84, vector5.rs:72-74,
    vector6.rs:73-75) applied to [alist v]. *)
Definition norm_inf (slice : list T) : outcome T :=
  max_min <- find_max_min slice ;; Ok (fst (max_ max_min)).

(** slices_methods.rs:73-75, [norm_l]; also the methods [Vn::norm_l]
    (vector2.rs:78-80, vector3.rs:110-112, vector4.rs:89-91, vector5.rs:78-80,
    vector6.rs:79-81) applied to [alist v]. *)
Definition norm_l (slice : list T) : T :=
  iter_sum (map (fun element => abs element) slice).

(** slices_methods.rs:78-80, [norm2] *)
Definition norm2 (slice : list T) : T :=
  fsqrt (fold_left (fun n i => (i * i) + n) slice zero).

(** slices_methods.rs:83-86, [dot]; the [assert!] panics on different lengths. *)
Definition dot (slice1 slice2 : list T) : outcome T :=
  if Nat.eqb (length slice1) (length slice2) then
    Ok (iter_sum (map (fun ab => fst ab * snd ab) (combine slice1 slice2)))
  else Panic.

(** slices_methods.rs:91-96, [normalize] *)
Definition normalize {n} (slice : arr T n) : arr T n :=
  let n := norm2 (alist slice) in
  amap (fun element => element / n) slice.

(** slices_methods.rs:99-101, [project_x_over_y] *)
Definition project_x_over_y (x y : list T) : outcome T :=
  a <- dot x y ;; b <- dot y y ;; Ok (a / b).

(** utils.rs:42-57, [nearly_equal] *)
Definition nearly_equal (a b epsilon : T) : bool :=
  let abs_a := abs a in
  let abs_b := abs b in
  let abs_diff := abs (a - b) in
  let zero := zero in
  if a =? b then true
  else if (a =? zero) || (b =? zero) || (abs_a + abs_b <? min_value) then
    abs_diff <? epsilon
  else
    abs_diff / fmin (abs_a + abs_b) max_value <? epsilon.

(** utils.rs:60-62, [nearly_zero] *)
Definition nearly_zero (a : T) : bool := nearly_equal a zero epsilon.

(** utils.rs:65-70, [compare_vecs]; [zip] stops at the shorter slice. *)
Definition compare_vecs (v1 v2 : list T) (epsilon : T) : bool :=
  forallb (fun x => x)
    (map (fun ab => nearly_equal (fst ab) (snd ab) epsilon) (combine v1 v2)).

(** utils.rs:72-74, [compare_floats] *)
Definition compare_floats (num1 num2 tol : T) : bool :=
  abs (num1 - num2) <? tol.

(** slices_methods.rs:103-109, [check_elements] *)
Definition check_elements (v : list T) (tol : T) : bool :=
  fold_left (fun result num => result || nearly_equal num zero tol) v false.

End Slices.
Arguments MaxMin T : clear implicits.
