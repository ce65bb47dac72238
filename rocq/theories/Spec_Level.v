(** Levels and white balance (C55). *)
From Coq Require Import String ZArith List Bool Reals.
From Flocq Require Import BinarySingleNaN.
From Verif Require Import Base Num F32 Transform Image Spec_Orient.
Import ListNotations.
Local Open Scope Z_scope.

(** A level of the white balance that makes sense: from 2^-20 to 2^20 *)
Definition sensible (x : f32) : Prop := is_finite x = true /\ (/ IZR (2 ^ 20) <= B2R x <= IZR (2 ^ 20))%R.
(** Three levels; the fourth may be missing: zero or not a number. *)
Definition sensible_balance (wb : vec4 f32) : Prop :=
  sensible (e0 wb) /\ sensible (e1 wb) /\ sensible (e2 wb) /\ (sensible (e3 wb) \/ e3 wb = B754_nan \/ exists s, e3 wb = B754_zero s).
(** The factor of a colour, relative to green *)
Definition factor (wb : vec4 f32) (c : Z) : R :=
  let x := at4 wb c in match x with B754_nan | B754_zero _ => 1%R | _ => (B2R x / B2R (e1 wb))%R end.
(** White is above black; both fit into 16 bits. *)
Definition sensible_levels {A} (img : rawimage A) : Prop :=
  forall c, 0 <= c < 4 -> 0 <= at4 (i_blacks img) c < at4 (i_whites img) c /\ at4 (i_whites img) c < 65536.
(** What a sample [v] of the colour [c] should become *)
Definition level_of {A} (img : rawimage A) (f : R) (c : Z) (v : R) : R :=
  let black := IZR (at4 (i_blacks img) c) in let white := IZR (at4 (i_whites img) c) in
  Rmin 1 ((v - black) / (white - black) * f).
(** A sample, not too big; not so close to black that the difference is lost *)
Definition ordinary {A} (img : rawimage A) (c : Z) (v : f32) : Prop :=
  let d := (B2R v - IZR (at4 (i_blacks img) c))%R in
  is_finite v = true /\ (Rabs (B2R v) <= 131072)%R /\ (d = 0%R \/ (/ IZR (2 ^ 40) <= Rabs d)%R).
(** An error of at most one part in two million *)
Definition within (x : f32) (r : R) : Prop := is_finite x = true /\ (Rabs (B2R x - r) <= Rabs r / IZR (2 ^ 21))%R.
