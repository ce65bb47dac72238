(** Rust's [f32]: IEEE 754 single precision with one NaN (the payload of a NaN
    is never looked at), from Flocq. *)
From Coq Require Import ZArith List Bool Reals.
From Flocq Require Import Core BinarySingleNaN.
From Verif Require Import Base Num.
Import ListNotations.
Local Open Scope Z_scope.

Definition f32 : Type := binary_float 24 128.
Definition f32_prec : Prec_gt_0 24 := eq_refl.
Definition f32_emax : Prec_lt_emax 24 128 := eq_refl.
Global Existing Instance f32_prec.
Global Existing Instance f32_emax.

(** [<], [<=], [==]: false if one of the numbers is a NaN *)
Definition f32_lt (x y : f32) : bool := Bltb x y.
Definition f32_le (x y : f32) : bool := Bleb x y.
Definition f32_eq (x y : f32) : bool := Beqb x y.
(** [f32::min], [f32::max]: the other number if one is a NaN *)
Definition f32_min (x y : f32) : f32 :=
  if is_nan x then y else if is_nan y then x else if Bltb y x then y else x.
Definition f32_max (x y : f32) : f32 :=
  if is_nan x then y else if is_nan y then x else if Bltb x y then y else x.
(** [f32::is_normal]: not 0, subnormal, infinite or NaN *)
Definition f32_normal (x : f32) : bool :=
  match x with B754_finite _ m _ _ => 2 ^ 23 <=? Zpos m | _ => false end.
(** [x as f32] of an integer: nearest, ties to even *)
Definition f32_of (z : Z) : f32 := binary_normalize 24 128 f32_prec f32_emax mode_NE z 0 false.
(** [x as uN]: toward zero, NaN is 0, saturating (up to Rust 1.44 a value out of
    range is undefined) *)
Definition f32_to (lo hi : Z) (x : f32) : Z :=
  match x with
  | B754_nan => 0
  | B754_infinity s => if s then lo else hi
  | _ => Z.max lo (Z.min hi (Btrunc x))
  end.

(** The functions of the C library are parameters. *)
Definition f32_num (cbrt : f32 -> f32) (pow : f32 -> f32 -> f32) : Num f32 := {|
  n_add := Bplus mode_NE;
  n_sub := Bminus mode_NE;
  n_mul := Bmult mode_NE;
  n_div := Bdiv mode_NE;
  n_opp := Bopp;
  n_lt := f32_lt;
  n_le := f32_le;
  n_eq := f32_eq;
  n_min := f32_min;
  n_max := f32_max;
  n_floor := Bnearbyint mode_DN;
  n_ceil := Bnearbyint mode_UP;
  n_trunc := Bnearbyint mode_ZR;
  n_normal := f32_normal;
  n_of := f32_of;
  n_to := f32_to;
  n_cbrt := cbrt;
  n_pow := pow |}.
