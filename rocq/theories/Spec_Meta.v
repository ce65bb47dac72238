(** Specification of what a decoded image says besides its samples: black levels
    (C50), numbers of the file (C51), colours of small Canon pictures (C52). *)
From Coq Require Import String Ascii ZArith List Bool Reals.
From Flocq Require Import Core BinarySingleNaN.
From Verif Require Import F32 Spec_Cfa Spec_Bits.
Import ListNotations.
Local Open Scope Z_scope.

(** ** Black levels *)
Definition from_to (a b : Z) : list Z := map (fun k => a + Z.of_nat k) (seq 0 (Z.to_nat (b - a))).
(** The masked pixels (row, column): [h1] rows from row [h0] on, then [v1]
    columns from column [v0] on.  A pixel of both is counted twice. *)
Definition masked (width height : Z) (area_h area_v : Z * Z) : list (Z * Z) :=
  list_prod (from_to (fst area_h) (fst area_h + snd area_h)) (from_to 0 width) ++
  list_prod (from_to 0 height) (from_to (fst area_v) (fst area_v + snd area_v)).
(** The samples of those pixels under the filter of a colour *)
Definition under (name : string) (c : Z) (p : Z * Z) : bool :=
  match colour name (fst p) (snd p) with Some c' => c' =? c | None => false end.
Definition measured (name : string) (image : list Z) (width : Z) (pixels : list (Z * Z)) (c : Z) : list Z :=
  map (fun p => nth (Z.to_nat (fst p * width + snd p)) image 0) (filter (under name c) pixels).
Definition total (l : list Z) : Z := fold_right Z.add 0 l.
(** The mean, rounded down; 0 if there are no samples *)
Definition mean (l : list Z) : Z := match l with [] => 0 | _ => total l / Z.of_nat (length l) end.

(** ** Numbers *)
(** A fraction of a file is two numbers of four bytes, one after the other.
    This is the number of eight bytes that is written the same way. *)
Definition fraction (big : bool) (q : Z * Z) : Z :=
  let a := fst q mod 2 ^ 32 in let b := snd q mod 2 ^ 32 in
  if big then a * 2 ^ 32 + b else a + b * 2 ^ 32.
(** What a fraction of a type can hold: RATIONAL (5), SRATIONAL (10) *)
Definition fits (typ : Z) (v : Z) : Prop :=
  typ = 5 /\ 0 <= v < 2 ^ 32 \/ typ = 10 /\ - 2 ^ 31 <= v < 2 ^ 31.
(** No single precision number is closer *)
Definition nearest (x : f32) (r : R) : Prop :=
  is_finite x = true /\ forall y : f32, is_finite y = true -> (Rabs (B2R x - r) <= Rabs (B2R y - r))%R.
(** An error of less than one part in four million *)
Definition close (x : f32) (r : R) : Prop :=
  is_finite x = true /\ (Rabs (B2R x - r) <= Rabs r / IZR (2 ^ 22))%R.
(** What the program reads for the fraction [a] over [b] *)
Definition reads_fraction (x : f32) (a b : Z) : Prop :=
  (b <> 0 -> close x (IZR a / IZR b)) /\
  (b <> 0 -> Z.abs a <= 2 ^ 24 -> Z.abs b <= 2 ^ 24 -> nearest x (IZR a / IZR b)) /\
  (b = 0 -> x = if a =? 0 then B754_nan else B754_infinity (a <? 0)).
(** IEEE 754, single precision: sign, exponent and fraction *)
Definition ieee (sign : bool) (e m : Z) (x : f32) : Prop :=
  if e =? 255 then x = if m =? 0 then B754_infinity sign else B754_nan
  else is_finite x = true /\ Bsign x = sign /\
    B2R x = ((if sign then -1 else 1) * (if e =? 0 then IZR m * powerRZ 2 (-149) else (IZR (2 ^ 23 + m)) * powerRZ 2 (e - 150)))%R.

(** ** Small Canon pictures *)
Definition clamp16 (v : Z) : Z := Z.max 0 (Z.min 65535 v).
(** Red, green and blue of a pixel of brightness [y] and colour differences [cb]
    and [cr].  The file's white balance was applied by the camera and is taken
    back: [wr], [wg] and [wb] are its levels, 1024 meaning one. *)
Definition canon_rgb (wr wg wb yoffset : Z) (pixel : Z * Z * Z) : list Z :=
  let '(y, cb, cr) := pixel in
  let y := y - yoffset in let cb := cb - 16383 in let cr := cr - 16383 in
  [clamp16 (2 ^ 20 / wr * (y + cr) / 256);
   clamp16 (wg * (y - (778 * cb + 2048 * cr + 4095) / 4096) / 256);
   clamp16 (2 ^ 20 / wb * (y + cb) / 256)].
Definition parts (pixel : Z * Z * Z) : list Z := let '(y, cb, cr) := pixel in [y; cb; cr].
