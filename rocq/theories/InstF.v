(** * InstF: IEEE-754 binary floats of every precision

    Flocq's [binary_float prec emax] with one NaN (sign and payload of NaNs are
    not modelled) and round-to-nearest-even; f32 is [prec = 24, emax = 128], f64
    is [prec = 53, emax = 1024]. The transcendental functions and the decimal
    literals other than 2 and 4 are parameters about which nothing is assumed. *)

From Coq Require Import ZArith Reals Bool Lra Lia.
From Flocq Require Import Core IEEE754.BinarySingleNaN.
From Verif Require Import Base Scalar.

Class FOracle (fl : Type) := {
  o_sin : fl -> fl; o_cos : fl -> fl; o_tan : fl -> fl; o_acos : fl -> fl;
  o_atan2 : fl -> fl -> fl; o_exp : fl -> fl; o_ln : fl -> fl;
  o_PI : fl; o_FRAC_PI_2 : fl; o_1em40 : fl; o_1em6 : fl; o_1em3 : fl
}.

Section F.
Context {prec emax : Z} {Hp : Prec_gt_0 prec} {He : Prec_lt_emax prec emax}.
Notation fl := (binary_float prec emax).

#[export] Instance F_Num : Num fl := {|
  zero := B754_zero false;
  one := Bone;
  add := Bplus mode_NE;
  sub := Bminus mode_NE;
  mul := Bmult mode_NE;
  div := Bdiv mode_NE;
  eqb := Beqb
|}.
#[export] Instance F_Signed : Signed fl := {| neg := Bopp; abs := Babs |}.
#[export] Instance F_POrd : POrd fl := {| ltb := Bltb; leb := Bleb |}.

(** the correctly rounded conversion of an integer *)
Definition fofZ (n : Z) : fl := binary_normalize prec emax Hp He mode_NE n 0 false.

(** [f64::min]: the other argument when one is NaN *)
Definition f_min (a b : fl) : fl :=
  if is_nan a then b else if is_nan b then a else if Bltb b a then b else a.

#[export] Instance F_Float {O : FOracle fl} : Float fl := {|
  fsqrt := Bsqrt mode_NE;
  fsin := o_sin; fcos := o_cos; ftan := o_tan; facos := o_acos; fatan2 := o_atan2;
  fexp := o_exp; fln := o_ln;
  fmin := f_min;
  epsilon := Bldexp mode_NE Bone (1 - prec);
  max_value := Bmax_float;
  min_value := Bopp Bmax_float;
  infinity := B754_infinity false;
  PI_ := o_PI; FRAC_PI_2 := o_FRAC_PI_2;
  lit_2 := fofZ 2; lit_4 := fofZ 4;
  lit_1em40 := o_1em40; lit_1em6 := o_1em6; lit_1em3 := o_1em3
|}.

(** ** commutation *)

Lemma Bplus_comm (x y : fl) : Bplus mode_NE x y = Bplus mode_NE y x.
Proof.
  destruct x as [sx|sx| |sx mx ex Hx], y as [sy|sy| |sy my ey Hy]; try reflexivity;
    try (destruct sx, sy; reflexivity).
  cbn [Bplus]. unfold Fplus_naive. rewrite (Z.min_comm ey ex), Z.add_comm. reflexivity.
Qed.

Lemma Bmult_comm (x y : fl) : Bmult mode_NE x y = Bmult mode_NE y x.
Proof.
  destruct x as [sx|sx| |sx mx ex Hx], y as [sy|sy| |sy my ey Hy]; try reflexivity;
    try (cbn; rewrite xorb_comm; reflexivity).
  cbn [Bmult]. apply B2SF_inj. rewrite !B2SF_SF2B.
  rewrite (xorb_comm sx sy), (Pos.mul_comm mx my), (Z.add_comm ex ey). reflexivity.
Qed.

Lemma B2SF_inf (x : fl) s : B2SF x = SpecFloat.S754_infinity s -> x = B754_infinity s.
Proof. intros H. apply B2SF_inj. exact H. Qed.

Lemma Babs_minus_comm (x y : fl) : Babs (Bminus mode_NE x y) = Babs (Bminus mode_NE y x).
Proof.
  destruct (is_finite x) eqn:Fx; [destruct (is_finite y) eqn:Fy| ].
  - pose proof (Bminus_correct prec emax Hp He mode_NE x y Fx Fy) as A.
    pose proof (Bminus_correct prec emax Hp He mode_NE y x Fy Fx) as B.
    replace (B2R y - B2R x)%R with (- (B2R x - B2R y))%R in B by ring.
    rewrite round_NE_opp, Rabs_Ropp in B.
    destruct (Rlt_bool _ _).
    + destruct A as (A1 & A2 & _), B as (B1 & B2 & _).
      apply B2R_Bsign_inj; rewrite ?is_finite_Babs; try assumption.
      * rewrite !B2R_Babs, A1, B1. cbn [round_mode]. now rewrite Rabs_Ropp.
      * rewrite !Bsign_Babs; reflexivity.
    + destruct A as (A1 & _), B as (B1 & _). cbn in A1, B1.
      unfold binary_overflow in A1, B1. cbn in A1, B1. apply B2SF_inf in A1, B1. rewrite A1, B1. reflexivity.
  - destruct y as [sy|sy| |sy my ey Hy]; try discriminate; destruct x as [sx|sx| |sx mx ex Hx]; try discriminate; try reflexivity.
  - destruct x as [sx|sx| |sx mx ex Hx]; try discriminate; destruct y as [sy|sy| |sy my ey Hy]; try reflexivity.
    destruct sx, sy; reflexivity.
Qed.

Lemma Beqb_sym (x y : fl) : Beqb x y = Beqb y x.
Proof.
  unfold Beqb, SpecFloat.SFeqb. change (SpecFloat.SFcompare (B2SF x) (B2SF y)) with (Bcompare x y).
  change (SpecFloat.SFcompare (B2SF y) (B2SF x)) with (Bcompare y x).
  rewrite (Bcompare_swap _ _ x y). destruct (Bcompare x y) as [[]| ]; reflexivity.
Qed.

End F.
