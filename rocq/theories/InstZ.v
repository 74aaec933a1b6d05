(** * InstZ: the scalar classes on exact and on wrapping integers

    [Z] is the ideal integer type (every machine integer computation that does
    not overflow agrees with it); [wint m] are the residues modulo [m], which is
    how i8 .. i128 add, subtract and multiply in release builds ([m = 2^8] ..
    [2^128]). Both satisfy [RingLaws]. *)

From Coq Require Import ZArith InitialRing Lia Bool Eqdep_dec Ring.
From Verif Require Import Scalar RingDet.

(** Rust's integer [/] truncates towards zero: [Z.quot]. *)
Global Instance Z_Num : Num Z :=
  {| zero := 0%Z; one := 1%Z; add := Z.add; sub := Z.sub; mul := Z.mul;
     div := Z.quot; eqb := Z.eqb |}.
Global Instance Z_Signed : Signed Z := {| neg := Z.opp; abs := Z.abs |}.
Global Instance Z_POrd : POrd Z := {| ltb := Z.ltb; leb := Z.leb |}.

Lemma Z_ring : RingLaws Z.
Proof. exact Zth. Qed.

(** Residues modulo [m]. *)
Definition inrange (m z : Z) : bool := (0 <=? z)%Z && (z <? m)%Z.
Definition wint (m : Z) : Type := { z : Z | inrange m z = true }.

Section W.
Variable m : Z.
Hypothesis Hm : (0 < m)%Z.

Lemma wrap_ok z : inrange m (z mod m) = true.
Proof.
  unfold inrange. pose proof (Z.mod_pos_bound z m Hm) as [H1 H2].
  apply andb_true_intro. split; [apply Z.leb_le|apply Z.ltb_lt]; lia.
Qed.

Definition wrap (z : Z) : wint m := exist _ (z mod m)%Z (wrap_ok z).

Lemma wint_eq (a b : wint m) : proj1_sig a = proj1_sig b -> a = b.
Proof.
  destruct a as [x p], b as [y q]. cbn. intros ->. f_equal.
  apply UIP_dec. apply bool_dec.
Qed.

Lemma wint_small (a : wint m) : (proj1_sig a mod m = proj1_sig a)%Z.
Proof.
  destruct a as [x p]. cbn. unfold inrange in p. apply andb_prop in p as [p1 p2].
  apply Z.leb_le in p1. apply Z.ltb_lt in p2. apply Z.mod_small. lia.
Qed.

(** Wrapping arithmetic; division is not part of the ring and is kept as the
    division of the representatives. *)
Definition wint_Num : Num (wint m) :=
  {| zero := wrap 0; one := wrap 1;
     add a b := wrap (proj1_sig a + proj1_sig b);
     sub a b := wrap (proj1_sig a - proj1_sig b);
     mul a b := wrap (proj1_sig a * proj1_sig b);
     div a b := wrap (proj1_sig a / proj1_sig b);
     eqb a b := Z.eqb (proj1_sig a) (proj1_sig b) |}.
Definition wint_Signed : Signed (wint m) :=
  {| neg a := wrap (- proj1_sig a); abs a := a |}.

Lemma wint_ring : @RingLaws (wint m) wint_Num wint_Signed.
Proof.
  constructor; intros; apply wint_eq;
    cbv [zero one add mul sub neg wint_Num wint_Signed wrap proj1_sig];
    rewrite ?Zplus_mod_idemp_l, ?Zplus_mod_idemp_r, ?Zmult_mod_idemp_l, ?Zmult_mod_idemp_r.
  - rewrite Z.add_0_l. apply wint_small.
  - f_equal; ring.
  - f_equal; ring.
  - rewrite Z.mul_1_l. apply wint_small.
  - f_equal; ring.
  - f_equal; ring.
  - f_equal; ring.
  - f_equal; ring.
  - rewrite Z.add_opp_diag_r. reflexivity.
Qed.

End W.
