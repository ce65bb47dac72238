(** Specification of Nikon's compression, independent of the model of the
    program. *)
From Coq Require Import ZArith List Bool.
From Verif Require Import Spec_Bits Spec_Huffman Spec_Ljpeg Spec_Curve Spec_Pred.
Import ListNotations.
Local Open Scope Z_scope.

(** The words of the categories, for pictures of 12 or 14 bits, with or without
    loss.  In the first table category 0 has a second word, which is not used. *)
Definition nikon_code (bits14 lossless : bool) : hcode :=
  match bits14, lossless with
  | false, false => mkcode [0; 1; 5; 1; 1; 1; 1; 1; 1; 2; 0; 0; 0; 0; 0; 0] [5; 4; 3; 6; 2; 7; 1; 0; 8; 9; 11; 10; 12; 0]
  | false, true => mkcode [0; 1; 4; 2; 3; 1; 2; 0; 0; 0; 0; 0; 0; 0; 0; 0] [5; 4; 6; 3; 7; 2; 8; 1; 9; 0; 10; 11; 12]
  | true, false => mkcode [0; 1; 4; 3; 1; 1; 1; 1; 1; 2; 0; 0; 0; 0; 0; 0] [5; 6; 4; 7; 8; 3; 9; 2; 1; 0; 10; 11; 12; 13; 14]
  | true, true => mkcode [0; 1; 4; 2; 2; 3; 1; 2; 0; 0; 0; 0; 0; 0; 0; 0] [7; 6; 8; 5; 9; 4; 10; 3; 11; 12; 2; 0; 1; 13; 14]
  end.

(** The part of the maker note that describes the compression: two bytes for the
    version, for some versions 2110 bytes that are skipped, the start values of
    the first column and of the second, and the points of the curve. *)
Definition nikon_note (big : bool) (v0 v1 : Z) (skipped : list Z) (a b c d : Z) (points more : list Z) : list Z :=
  [v0; v1] ++ skipped ++ flat_map (two_bytes big) ([a; b; c; d] ++ [Z.of_nat (length points)] ++ points) ++ more.
Definition nikon_skipped (v0 v1 : Z) : Z := if (v0 =? 73) || (v1 =? 88) then 2110 else 0.
Definition nikon_start (a b c d r col : Z) : Z :=
  if col =? 0 then (if r =? 0 then a else b) else (if r =? 0 then c else d).
(** The curve: none if the compression has no loss (version byte 70), otherwise
    the points, or, in one version, lines between points [step] apart. *)
Definition nikon_curve (v0 v1 bps : Z) (points curve : list Z) : Prop :=
  v0 = 70 /\ curve = upto (2 ^ bps) \/
  v0 <> 70 /\ ~ (v0 = 68 /\ v1 = 32) /\ Z.of_nat (length points) <= 16385 /\ curve = points \/
  v0 = 68 /\ v1 = 32 /\ exists step, 0 < step /\ step * (Z.of_nat (length points) - 1) = 2 ^ bps /\
    curve = map (fun i => (at_ points (i / step) * (step - i mod step) + at_ points (i / step + 1) * (i mod step)) / step) (upto (2 ^ bps)).

(** What a value becomes: a number chosen by [noise] around the point of the
    curve. *)
Definition toned (curve : list Z) (v noise : Z) : Z :=
  let c := at_ curve v in let d := above curve v - below curve v in
  ((if c =? 0 then 0 else c - (d + 2) / 4) + (d * (noise mod 2048) + 1024) / 4096) mod 65536.
(** The noise of the pixels, given that of the first. *)
Fixpoint noise_after (n : nat) (first : Z) : Z :=
  match n with O => first | S n => let r := noise_after n first in 15700 * (r mod 65536) + r / 65536 end.
(** The picture after the curve; the first 24 bits of the pixels are the first noise. *)
Definition toned_picture (curve : list Z) (pic : Z -> Z -> Z) (w first r c : Z) : Z :=
  toned curve (pic r c) (noise_after (Z.to_nat (r * w + c)) first).
(** In the version with lines between points the note gives, at byte 562, a row
    from which on another table is used (0 for none). *)
Definition nikon_second (big : bool) (v0 v1 : Z) (note : list Z) : Z :=
  if (v0 =? 68) && (v1 =? 32) then
    (if big then big_endian_value (firstn 2 (skipn 562 note)) else little_endian_value (firstn 2 (skipn 562 note)))
  else 0.
