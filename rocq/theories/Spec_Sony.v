(** Sony's compression of blocks (C58).  A row is cut into pieces of thirty-two
    pixels; the even and the odd columns of a piece are one block each.  A block of
    sixteen values of eleven bits takes sixteen bytes: the biggest and the smallest
    value, their places, and seven bits for the distance of each other value from
    the smallest. *)
From Coq Require Import ZArith List Bool.
From Verif Require Import Spec_Bits Spec_Image Spec_Packed Spec_Ljpeg Spec_Curve Spec_Nikon.
Import ListNotations.
Local Open Scope Z_scope.

(** How many of the lower bits of the distances are left out, so that the biggest
    one fits in seven bits. *)
Definition left_out (delta : Z) : Z := if delta <? 128 then 0 else Z.log2 delta - 6.
(** The places of the biggest and of the smallest value *)
Definition extremes (v : Z -> Z) (imax imin : Z) : Prop :=
  0 <= imax < 16 /\ 0 <= imin < 16 /\ imax <> imin /\ forall i, 0 <= i < 16 -> v imin <= v i <= v imax.
Definition block_word (v : Z -> Z) (imax imin i : Z) : Z := (v i - v imin) / 2 ^ left_out (v imax - v imin).
(** The bits of a block, each number from its lowest bit on *)
Definition block_bits (v : Z -> Z) (imax imin : Z) : list bool :=
  sample_bits_lsb 11 (v imax) ++ sample_bits_lsb 11 (v imin) ++ sample_bits_lsb 4 imax ++ sample_bits_lsb 4 imin ++
  flat_map (fun i => if (i =? imax) || (i =? imin) then [] else sample_bits_lsb 7 (block_word v imax imin i)) (upto 16).
(** What the block tells about value [i] *)
Definition block_value (v : Z -> Z) (imax imin i : Z) : Z :=
  if (i =? imax) || (i =? imin) then v i
  else v imin + block_word v imax imin i * 2 ^ left_out (v imax - v imin).

(** Block [b] of row [r]: piece [b / 2], the columns of the parity of [b] *)
Definition block_of (pic : Z -> Z -> Z) (r b i : Z) : Z := pic r (32 * (b / 2) + b mod 2 + 2 * i).
(** The number of the block of a column and the place there *)
Definition block_number (c : Z) : Z := 2 * (c / 32) + c mod 2.
Definition block_place (c : Z) : Z := c mod 32 / 2.
(** [imax] and [imin] give the places for each row and each of its blocks. *)
Definition sony_row (pic imax imin : Z -> Z -> Z) (w r : Z) : list bool :=
  flat_map (fun b => block_bits (block_of pic r b) (imax r b) (imin r b)) (upto (w / 16)).
Definition sony_picture (pic imax imin : Z -> Z -> Z) (w h : Z) : Prop :=
  (forall r c, 0 <= r < h -> 0 <= c < w -> 0 <= pic r c < 2048) /\
  (forall r b, 0 <= r < h -> 0 <= b < w / 16 -> extremes (block_of pic r b) (imax r b) (imin r b)).
Definition sony_value (pic imax imin : Z -> Z -> Z) (r c : Z) : Z :=
  let b := block_number c in block_value (block_of pic r b) (imax r b) (imin r b) (block_place c).
(** The picture after the curve, which has two entries for each value.  The noise of
    a row starts with its first 24 bits and goes on block by block. *)
Definition sony_toned (curve : list Z) (pic imax imin : Z -> Z -> Z) (w r c : Z) : Z :=
  toned curve (2 * sony_value pic imax imin r c)
    (noise_after (Z.to_nat (16 * block_number c + block_place c)) (number_lsb (firstn 24 (sony_row pic imax imin w r)))).

(** The curve of a file: four points between 0 and 4095; it rises by 1 in each step
    up to the first point, by 2 up to the second, and so on up to 16. *)
Definition sony_curve (p1 p2 p3 p4 : Z) (x : Z) : Z :=
  let part a b := Z.max 0 (Z.min x b - a) in
  part 0 p1 + 2 * part p1 p2 + 4 * part p2 p3 + 8 * part p3 p4 + 16 * part p4 4095.
(** The curve tag holds the points times four. *)
Definition curve_point (e : Z) : Z := e / 4 mod 4096.
Definition curve_table (p1 p2 p3 p4 : Z) : list Z := map (sony_curve p1 p2 p3 p4) (upto 4096).
