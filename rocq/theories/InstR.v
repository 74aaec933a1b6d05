(** * InstR: ideal real arithmetic

    The scalar classes on Coq's real numbers. The machine constants are
    parameters [RConsts] with the inequalities [RConstsOk] that the f32 and the
    f64 constants both satisfy ([f64_consts_ok], [f32_consts_ok]). Real
    arithmetic has no NaN and no infinity: [infinity] is some number above every
    finite float. *)

From Coq Require Import Reals Lra Lia RealField Bool ZArith.
From Verif Require Import Scalar RingDet.
Local Open Scope R_scope.

Class RConsts := {
  r_eps : R;   (* T::epsilon() *)
  r_max : R;   (* T::max_value() *)
  r_inf : R;   (* T::infinity() *)
  r_1em40 : R; r_1em6 : R; r_1em3 : R
}.

Record RConstsOk (K : RConsts) : Prop := {
  eps_pos : 0 < r_eps;
  eps_small : r_eps < / 1000000;
  max_large : 1000000 < r_max;
  inf_large : r_max < r_inf;
  tiny_pos : 0 < r_1em40;
  tiny_small : r_1em40 < / 1000000;
  em6_pos : 0 < r_1em6;
  em6_small : r_1em6 < / 100000;
  em3_pos : 0 < r_1em3;
  em3_small : r_1em3 < / 100
}.

Definition Rltb (x y : R) : bool := if Rlt_dec x y then true else false.
Definition Rleb (x y : R) : bool := if Rle_dec x y then true else false.
Definition Reqb (x y : R) : bool := if Req_EM_T x y then true else false.

(** atan2 with values in (-PI, PI]. *)
Definition Ratan2 (y x : R) : R :=
  if Rlt_dec 0 x then atan (y / x)
  else if Rlt_dec x 0 then
    (if Rle_dec 0 y then atan (y / x) + PI else atan (y / x) - PI)
  else if Rlt_dec 0 y then PI / 2
  else if Rlt_dec y 0 then - (PI / 2)
  else 0.

Global Instance R_Num : Num R :=
  {| zero := 0; one := 1; add := Rplus; sub := Rminus; mul := Rmult; div := Rdiv;
     eqb := Reqb |}.
Global Instance R_Signed : Signed R := {| neg := Ropp; abs := Rabs |}.
Global Instance R_POrd : POrd R := {| ltb := Rltb; leb := Rleb |}.
Global Instance R_Float (K : RConsts) : Float R :=
  {| fsqrt := sqrt; fsin := sin; fcos := cos; ftan := tan; facos := acos;
     fatan2 := Ratan2; fexp := exp; fln := ln; fmin := Rmin;
     epsilon := r_eps; max_value := r_max; min_value := - r_max; infinity := r_inf;
     PI_ := PI; FRAC_PI_2 := PI / 2; lit_2 := 2; lit_4 := 4;
     lit_1em40 := r_1em40; lit_1em6 := r_1em6; lit_1em3 := r_1em3 |}.

Lemma R_ring : RingLaws R.
Proof.
  constructor; cbn [zero one add sub mul neg R_Num R_Signed]; intros;
    unfold Rminus; ring.
Qed.

Lemma Rltb_true x y : Rltb x y = true <-> x < y.
Proof. unfold Rltb. destruct (Rlt_dec x y); split; auto; discriminate. Qed.
Lemma Rltb_false x y : Rltb x y = false <-> y <= x.
Proof. unfold Rltb. destruct (Rlt_dec x y); split; auto; try discriminate; lra. Qed.
Lemma Rleb_true x y : Rleb x y = true <-> x <= y.
Proof. unfold Rleb. destruct (Rle_dec x y); split; auto; discriminate. Qed.
Lemma Rleb_false x y : Rleb x y = false <-> y < x.
Proof. unfold Rleb. destruct (Rle_dec x y); split; auto; try discriminate; lra. Qed.
Lemma Reqb_true x y : Reqb x y = true <-> x = y.
Proof. unfold Reqb. destruct (Req_EM_T x y); split; auto; discriminate. Qed.
Lemma Reqb_false x y : Reqb x y = false <-> x <> y.
Proof. unfold Reqb. destruct (Req_EM_T x y); split; auto; try discriminate; easy. Qed.

Lemma Rltb_spec x y : reflect (x < y) (Rltb x y).
Proof. unfold Rltb. destruct (Rlt_dec x y); constructor; auto. Qed.
Lemma Rleb_spec x y : reflect (x <= y) (Rleb x y).
Proof. unfold Rleb. destruct (Rle_dec x y); constructor; auto. Qed.
Lemma Reqb_spec x y : reflect (x = y) (Reqb x y).
Proof. unfold Reqb. destruct (Req_EM_T x y); constructor; auto. Qed.

(** ** The constants of f64 and f32 (the decimal literals before rounding) *)

Definition f64_consts : RConsts :=
  {| r_eps := / 2 ^ 52; r_max := 2 ^ 1024 - 2 ^ 971; r_inf := 2 ^ 1024;
     r_1em40 := / 10 ^ 40; r_1em6 := / 10 ^ 6; r_1em3 := / 10 ^ 3 |}.
Definition f32_consts : RConsts :=
  {| r_eps := / 2 ^ 23; r_max := 2 ^ 128 - 2 ^ 104; r_inf := 2 ^ 128;
     r_1em40 := / 10 ^ 40; r_1em6 := / 10 ^ 6; r_1em3 := / 10 ^ 3 |}.

Lemma pow_ge_2 k m : (m <= k)%nat -> 2 ^ m <= 2 ^ k.
Proof. intros. apply Rle_pow; [lra | assumption]. Qed.

Lemma ok_consts (K : RConsts) p q l :
  (23 <= p)%nat -> (20 <= q)%nat -> (l <= q)%nat ->
  @r_eps K = / 2 ^ p -> @r_max K = 2 ^ S q - 2 ^ l -> @r_inf K = 2 ^ S q ->
  @r_1em40 K = / 10 ^ 40 -> @r_1em6 K = / 10 ^ 6 -> @r_1em3 K = / 10 ^ 3 ->
  RConstsOk K.
Proof.
  intros Hp Hq Hl E1 E2 E3 E4 E5 E6.
  pose proof (pow_ge_2 p 23 Hp) as P. pose proof (pow_ge_2 q 20 Hq) as Q.
  pose proof (pow_ge_2 q l Hl) as L. pose proof (pow_lt 2 l ltac:(lra)) as L0.
  assert (T23 : 2 ^ 23 = 8388608) by (cbn [pow]; lra).
  assert (T20 : 2 ^ 20 = 1048576) by (cbn [pow]; lra).
  assert (T40 : 10000000 < 10 ^ 40).
  { replace (10 ^ 40) with (10 ^ 8 * 10 ^ 32) by (rewrite <- pow_add; reflexivity).
    pose proof (pow_R1_Rle 10 32 ltac:(lra)). nra. }
  constructor; rewrite ?E1, ?E2, ?E3, ?E4, ?E5, ?E6.
  - apply Rinv_0_lt_compat. lra.
  - apply Rinv_lt_contravar; lra.
  - cbn [pow]. lra.
  - lra.
  - apply Rinv_0_lt_compat. lra.
  - apply Rinv_lt_contravar; lra.
  - apply Rinv_0_lt_compat. lra.
  - apply Rinv_lt_contravar; lra.
  - apply Rinv_0_lt_compat. lra.
  - apply Rinv_lt_contravar; lra.
Qed.

Lemma f64_consts_ok : RConstsOk f64_consts.
Proof. apply (ok_consts _ 52 1023 971); try reflexivity; lia. Qed.
Lemma f32_consts_ok : RConstsOk f32_consts.
Proof. apply (ok_consts _ 23 127 104); try reflexivity; lia. Qed.
