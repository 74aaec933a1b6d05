(** * Display: the [fmt::Display] implementations

    A formatter writes text to its destination; [println!] writes to the standard
    output of the process. Both are strings to which text is appended; write
    errors ([fmt::Result]) are not modelled. How a scalar is shown is a parameter
    ([show]); the padding and precision of the format string are its argument. *)

From Coq Require Import String Ascii List.
From Verif Require Import Base Scalar Vec Mat2 MatOps Quat DualQuat.
Open Scope string_scope.

(** alignment, width and precision: [{:<7.2}] is [mkSpec Left 7 2] *)
Inductive align := Left | Center | Right.
Record spec := mkSpec { sp_align : align; sp_width : nat; sp_prec : nat }.

Class Display (T : Type) := show : spec -> T -> string.

Record io := mkIo { stdout : string; dest : string }.
Definition fmt := io -> io.

Definition newline : string := String (ascii_of_nat 10) "".

(** [println!()] *)
Definition println : fmt := fun s => mkIo (stdout s ++ newline) (dest s).
(** [write!(dest, ...)], [writeln!(dest, ...)] *)
Definition write (t : string) : fmt := fun s => mkIo (stdout s) (dest s ++ t).
Definition writeln (t : string) : fmt := write (t ++ newline).
(** [a?; b] *)
Definition andthen (a b : fmt) : fmt := fun s => b (a s).
Notation "a ;;; b" := (andthen a b) (at level 61, right associativity).

Section Display.
Context {T : Type} {dT : Display T}.

(** vector2.rs:247-249, [impl Display for V2] *)
Definition v2_fmt (self : V2 T) : fmt :=
  writeln ("[" ++ show (mkSpec Center 3 2) self.[0] ++ " " ++ show (mkSpec Center 3 2) self.[1] ++ "]").

(** vector3.rs:287-293, [impl Display for V3] *)
Definition v3_fmt (self : V3 T) : fmt :=
  writeln ("[" ++ show (mkSpec Center 3 2) self.[0] ++ " " ++ show (mkSpec Center 3 2) self.[1] ++ " " ++ show (mkSpec Center 3 2) self.[2] ++ "]").

(** vector4.rs:255-257, [impl Display for V4] *)
Definition v4_fmt (self : V4 T) : fmt :=
  writeln ("[" ++ show (mkSpec Center 3 2) self.[0] ++ " " ++ show (mkSpec Center 3 2) self.[1] ++ " " ++ show (mkSpec Center 3 2) self.[2] ++ " " ++ show (mkSpec Center 3 2) self.[3] ++ "]").

(** vector5.rs:239-241, [impl Display for V5] *)
Definition v5_fmt (self : V5 T) : fmt :=
  writeln ("[" ++ show (mkSpec Center 3 2) self.[0] ++ " " ++ show (mkSpec Center 3 2) self.[1] ++ " " ++ show (mkSpec Center 3 2) self.[2] ++ " " ++ show (mkSpec Center 3 2) self.[3] ++ " " ++ show (mkSpec Center 3 2) self.[4] ++ "]").

(** vector6.rs:295-298, [impl Display for V6] *)
Definition v6_fmt (self : V6 T) : fmt :=
  writeln ("[" ++ show (mkSpec Center 3 2) self.[0] ++ " " ++ show (mkSpec Center 3 2) self.[1] ++ " " ++ show (mkSpec Center 3 2) self.[2] ++ " " ++ show (mkSpec Center 3 2) self.[3] ++ " " ++ show (mkSpec Center 3 2) self.[4] ++ " " ++ show (mkSpec Center 3 2) self.[5] ++ "]").

(** matrix2x2.rs:529-533, [impl Display for M22] *)
Definition m22_fmt (self : M22 T) : fmt :=
  println ;;;
  writeln ("|" ++ show (mkSpec Center 3 2) self.[0].[0] ++ " " ++ show (mkSpec Center 3 2) self.[0].[1] ++ "|") ;;;
  writeln ("|" ++ show (mkSpec Center 3 2) self.[1].[0] ++ " " ++ show (mkSpec Center 3 2) self.[1].[1] ++ "|").

(** matrix3x3.rs:629-652, [impl Display for M33] *)
Definition m33_fmt (self : M33 T) : fmt :=
  println ;;;
  writeln ("|" ++ show (mkSpec Left 7 2) self.[0].[0] ++ " " ++ show (mkSpec Center 7 2) self.[0].[1] ++ " " ++ show (mkSpec Right 7 2) self.[0].[2] ++ "|") ;;;
  writeln ("|" ++ show (mkSpec Left 7 2) self.[1].[0] ++ " " ++ show (mkSpec Center 7 2) self.[1].[1] ++ " " ++ show (mkSpec Right 7 2) self.[1].[2] ++ "|") ;;;
  writeln ("|" ++ show (mkSpec Left 7 2) self.[2].[0] ++ " " ++ show (mkSpec Center 7 2) self.[2].[1] ++ " " ++ show (mkSpec Right 7 2) self.[2].[2] ++ "|").

(** matrix4x4.rs:820-854, [impl Display for M44] *)
Definition m44_fmt (self : M44 T) : fmt :=
  println ;;;
  writeln ("|" ++ show (mkSpec Left 7 2) self.[0].[0] ++ " " ++ show (mkSpec Center 7 2) self.[0].[1] ++ " " ++ show (mkSpec Center 7 2) self.[0].[2] ++ " " ++ show (mkSpec Right 7 2) self.[0].[3] ++ "|") ;;;
  writeln ("|" ++ show (mkSpec Left 7 2) self.[1].[0] ++ " " ++ show (mkSpec Center 7 2) self.[1].[1] ++ " " ++ show (mkSpec Center 7 2) self.[1].[2] ++ " " ++ show (mkSpec Right 7 2) self.[1].[3] ++ "|") ;;;
  writeln ("|" ++ show (mkSpec Left 7 2) self.[2].[0] ++ " " ++ show (mkSpec Center 7 2) self.[2].[1] ++ " " ++ show (mkSpec Center 7 2) self.[2].[2] ++ " " ++ show (mkSpec Right 7 2) self.[2].[3] ++ "|") ;;;
  writeln ("|" ++ show (mkSpec Left 7 2) self.[3].[0] ++ " " ++ show (mkSpec Center 7 2) self.[3].[1] ++ " " ++ show (mkSpec Center 7 2) self.[3].[2] ++ " " ++ show (mkSpec Right 7 2) self.[3].[3] ++ "|").

(** matrix5x5.rs:1079-1126, [impl Display for M55] *)
Definition m55_fmt (self : M55 T) : fmt :=
  println ;;;
  writeln ("|" ++ show (mkSpec Left 7 2) self.[0].[0] ++ " " ++ show (mkSpec Center 7 2) self.[0].[1] ++ " " ++ show (mkSpec Center 7 2) self.[0].[2] ++ " " ++ show (mkSpec Center 7 2) self.[0].[3] ++ " " ++ show (mkSpec Right 7 2) self.[0].[4] ++ "|") ;;;
  writeln ("|" ++ show (mkSpec Left 7 2) self.[1].[0] ++ " " ++ show (mkSpec Center 7 2) self.[1].[1] ++ " " ++ show (mkSpec Center 7 2) self.[1].[2] ++ " " ++ show (mkSpec Center 7 2) self.[1].[3] ++ " " ++ show (mkSpec Right 7 2) self.[1].[4] ++ "|") ;;;
  writeln ("|" ++ show (mkSpec Left 7 2) self.[2].[0] ++ " " ++ show (mkSpec Center 7 2) self.[2].[1] ++ " " ++ show (mkSpec Center 7 2) self.[2].[2] ++ " " ++ show (mkSpec Center 7 2) self.[2].[3] ++ " " ++ show (mkSpec Right 7 2) self.[2].[4] ++ "|") ;;;
  writeln ("|" ++ show (mkSpec Left 7 2) self.[3].[0] ++ " " ++ show (mkSpec Center 7 2) self.[3].[1] ++ " " ++ show (mkSpec Center 7 2) self.[3].[2] ++ " " ++ show (mkSpec Center 7 2) self.[3].[3] ++ " " ++ show (mkSpec Right 7 2) self.[3].[4] ++ "|") ;;;
  writeln ("|" ++ show (mkSpec Left 7 2) self.[4].[0] ++ " " ++ show (mkSpec Center 7 2) self.[4].[1] ++ " " ++ show (mkSpec Center 7 2) self.[4].[2] ++ " " ++ show (mkSpec Center 7 2) self.[4].[3] ++ " " ++ show (mkSpec Right 7 2) self.[4].[4] ++ "|").

(** matrix6x6.rs:1931-1993, [impl Display for M66] *)
Definition m66_fmt (self : M66 T) : fmt :=
  println ;;;
  writeln ("|" ++ show (mkSpec Left 7 2) self.[0].[0] ++ " " ++ show (mkSpec Center 7 2) self.[0].[1] ++ " " ++ show (mkSpec Center 7 2) self.[0].[2] ++ " " ++ show (mkSpec Center 7 2) self.[0].[3] ++ " " ++ show (mkSpec Center 7 2) self.[0].[4] ++ " " ++ show (mkSpec Right 7 2) self.[0].[5] ++ "|") ;;;
  writeln ("|" ++ show (mkSpec Left 7 2) self.[1].[0] ++ " " ++ show (mkSpec Center 7 2) self.[1].[1] ++ " " ++ show (mkSpec Center 7 2) self.[1].[2] ++ " " ++ show (mkSpec Center 7 2) self.[1].[3] ++ " " ++ show (mkSpec Center 7 2) self.[1].[4] ++ " " ++ show (mkSpec Right 7 2) self.[1].[5] ++ "|") ;;;
  writeln ("|" ++ show (mkSpec Left 7 2) self.[2].[0] ++ " " ++ show (mkSpec Center 7 2) self.[2].[1] ++ " " ++ show (mkSpec Center 7 2) self.[2].[2] ++ " " ++ show (mkSpec Center 7 2) self.[2].[3] ++ " " ++ show (mkSpec Center 7 2) self.[2].[4] ++ " " ++ show (mkSpec Right 7 2) self.[2].[5] ++ "|") ;;;
  writeln ("|" ++ show (mkSpec Left 7 2) self.[3].[0] ++ " " ++ show (mkSpec Center 7 2) self.[3].[1] ++ " " ++ show (mkSpec Center 7 2) self.[3].[2] ++ " " ++ show (mkSpec Center 7 2) self.[3].[3] ++ " " ++ show (mkSpec Center 7 2) self.[3].[4] ++ " " ++ show (mkSpec Right 7 2) self.[3].[5] ++ "|") ;;;
  writeln ("|" ++ show (mkSpec Left 7 2) self.[4].[0] ++ " " ++ show (mkSpec Center 7 2) self.[4].[1] ++ " " ++ show (mkSpec Center 7 2) self.[4].[2] ++ " " ++ show (mkSpec Center 7 2) self.[4].[3] ++ " " ++ show (mkSpec Center 7 2) self.[4].[4] ++ " " ++ show (mkSpec Right 7 2) self.[4].[5] ++ "|") ;;;
  writeln ("|" ++ show (mkSpec Left 7 2) self.[5].[0] ++ " " ++ show (mkSpec Center 7 2) self.[5].[1] ++ " " ++ show (mkSpec Center 7 2) self.[5].[2] ++ " " ++ show (mkSpec Center 7 2) self.[5].[3] ++ " " ++ show (mkSpec Center 7 2) self.[5].[4] ++ " " ++ show (mkSpec Right 7 2) self.[5].[5] ++ "|").

(** quaternion.rs:549-551, [impl Display for Quaternion]; the implementation of
    [V3] ignores the padding given for [q] *)
Definition q_fmt (self : Quaternion T) : fmt :=
  write ("q0: " ++ show (mkSpec Center 3 2) (q0 self) ++ ", q:") ;;; v3_fmt (q self).

(** dual_quaternion.rs:494-496, [impl Display for DualQuaternion] *)
Definition dq_fmt (self : DualQuaternion T) : fmt :=
  write "real: " ;;; q_fmt (q_real_ self) ;;; write (newline ++ "dual: ") ;;; q_fmt (q_dual_ self).

(** [format!("{}", x)]: what lands in the destination and on the standard output *)
Definition format (f : fmt) : string := dest (f (mkIo "" "")).
Definition printed (f : fmt) : string := stdout (f (mkIo "" "")).

End Display.

(** ** The remaining accessors *)

(** matrix2x2.rs:59-66, matrix3x3.rs:55-61, matrix4x4.rs:54-60, matrix5x5.rs:53-58,
    matrix6x6.rs:54-59, [rows], [cols]; also those of [LinearAlgebra]
    (matrix2x2.rs:70-76, matrix3x3.rs:65-71, matrix4x4.rs:64-70, matrix5x5.rs:62-68,
    matrix6x6.rs:64-71); [self.0.len()] is the length of the array of rows *)
Definition rows {T n} (self : mat T n) : nat := List.length (alist self).
Definition cols {T n} (self : mat T n) : nat := rows self.

(** traits.rs:40-42, [shape] *)
Definition shape {T n} (self : mat T n) : nat * nat := (rows self, cols self).

(** vector4.rs:75-77, [impl BitAnd for V4<bool>] *)
Definition v4_bitand (self rhs : V4 bool) : V4 bool :=
  [| andb self.[0] rhs.[0]; andb self.[1] rhs.[1]; andb self.[2] rhs.[2]; andb self.[3] rhs.[3] |].

(** quaternion.rs:540-542, [impl From<[T; 4]> for Quaternion] *)
Definition q_from_array {T} `{Num T} (data : arr T 4) : Quaternion T :=
  q_new_from data.[0] data.[1] data.[2] data.[3].

(** matrix2x2.rs:54-56, [new_from] *)
Definition m22_new_from {T} (a b c d : T) : M22 T := [| [| a; b |]; [| c; d |] |].

(** ** Constants; the literals 0.0 and 1.0 are [zero] and [one] *)

Section Constants.
Context {T : Type} {nT : Num T}.

(** vector2.rs:254-256 *)
Definition V2_ZEROS : V2 T := [| zero; zero |].
Definition V2_X_AXIS : V2 T := [| one; zero |].
Definition V2_Y_AXIS : V2 T := [| zero; one |].

(** vector3.rs:300-306 *)
Definition X_AXIS : V3 T := [| one; zero; zero |].
Definition Y_AXIS : V3 T := [| zero; one; zero |].
Definition Z_AXIS : V3 T := [| zero; zero; one |].
Definition V3_ZEROS : V3 T := [| zero; zero; zero |].

(** vector4.rs:264 *)
Definition V4_ZEROS : V4 T := [| zero; zero; zero; zero |].
(** vector5.rs:248 *)
Definition V5_ZEROS : V5 T := [| zero; zero; zero; zero; zero |].
(** vector6.rs:305 *)
Definition V6_ZEROS : V6 T := [| zero; zero; zero; zero; zero; zero |].

(** matrix2x2.rs:540-541, through [m22_new!] (matrix2x2.rs:519-523) *)
Definition M22_ZEROS : M22 T := [| [| zero; zero |]; [| zero; zero |] |].
Definition M22_IDENT : M22 T := [| [| one; zero |]; [| zero; one |] |].

End Constants.

(** ** By size *)

Definition d_vfmt {T} `{Display T} (d : dim) : arr T (dimn d) -> fmt :=
  match d with
  | D2 => v2_fmt
  | D3 => v3_fmt
  | D4 => v4_fmt
  | D5 => v5_fmt
  | D6 => v6_fmt
  end.

Definition d_fmt {T} `{Display T} (d : dim) : mat T (dimn d) -> fmt :=
  match d with
  | D2 => m22_fmt
  | D3 => m33_fmt
  | D4 => m44_fmt
  | D5 => m55_fmt
  | D6 => m66_fmt
  end.

Definition d_vZEROS {T} `{Num T} (d : dim) : arr T (dimn d) :=
  match d with
  | D2 => V2_ZEROS
  | D3 => V3_ZEROS
  | D4 => V4_ZEROS
  | D5 => V5_ZEROS
  | D6 => V6_ZEROS
  end.
