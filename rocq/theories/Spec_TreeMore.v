(** Files of further makers with nested directories (C62). *)
From Coq Require Import String ZArith List Bool Reals.
From Flocq Require Import BinarySingleNaN.
From Verif Require Import Base Num F32 Tiff Transform Image Camera Spec_Bits Spec_Packed Spec_Tiff Spec_Camera Spec_Meta Spec_File Spec_Tree.
Import ListNotations.
Local Open Scope Z_scope.

(** Bytes, as BYTE (1) or UNDEFINED (7) *)
Definition has_bytes (fs : list field) (tag : Z) (vs : list Z) : Prop :=
  (In (mkfield tag 1 vs) fs \/ In (mkfield tag 7 vs) fs) /\ bytes vs.
(** The number in two bytes, the upper one first *)
Definition two_bytes (vs : list Z) (k : Z) : Z := 256 * nth (Z.to_nat k) vs 0 + nth (Z.to_nat (k + 1)) vs 0.
(** Some cameras write several pictures.  The one that counts is the first that is
    more than 1000 wide, among the directories with the tag [which]; those before it
    have a width too. *)
Definition first_wide (ts : list tree) (which : Z) (raw : tree) : Prop :=
  exists before after, filter (has_value which) (flat_map all_trees ts) = before ++ raw :: after /\
    Forall (fun t => exists w, has_number (visible [t]) T_ImageWidth w /\ w <= 1000) before /\
    exists w, has_number (visible [raw]) T_ImageWidth w /\ 1000 < w.
Record wide_picture_at (ts : list tree) (file : list Z) (which : Z) (raw : tree) (w h : Z) (data : list Z) : Prop := {
  wp_directory : first_wide ts which raw;
  wp_width : has_number (visible [raw]) T_ImageWidth w;
  wp_height : has_number (visible [raw]) T_ImageLength h;
  wp_data : exists off, has_number (visible [raw]) T_StripOffsets off /\ from file off data
}.
(** Kodak writes how much a level must be divided by. *)
Definition kodak_balance (img : rawimage f32) (fs : list field) : Prop :=
  (exists vs, has_bytes fs T_DcrWB vs /\ 46 <= Z.of_nat (length vs) /\
     (two_bytes vs 40 <> 0 -> nearest (e0 (i_wb img)) (2048 / IZR (two_bytes vs 40))) /\
     (two_bytes vs 42 <> 0 -> nearest (e1 (i_wb img)) (2048 / IZR (two_bytes vs 42))) /\
     (two_bytes vs 44 <> 0 -> nearest (e2 (i_wb img)) (2048 / IZR (two_bytes vs 44)))) \/
  (exists vs, has_bytes fs T_DcrWB vs /\ Z.of_nat (length vs) < 46 /\ e0 (i_wb img) = B754_nan /\ e1 (i_wb img) = B754_nan /\ e2 (i_wb img) = B754_nan).
(** Epson: two numbers in the 256 bytes of a field, with constant factors. *)
Definition epson_balance (img : rawimage f32) (vs : list Z) : Prop :=
  close (e0 (i_wb img)) (IZR (two_bytes vs 48) * 508 * 1.078 / 65536) /\ nearest (e1 (i_wb img)) 1 /\
  close (e2 (i_wb img)) (IZR (two_bytes vs 50) * 382 * 1.173 / 65536) /\ e3 (i_wb img) = B754_nan.
(** Nikon's small cameras: samples of 12 bits, row after row, or the even rows first and
    then the odd ones, or with every four bytes turned round. *)
Definition coolpix_rows (cam : camera) (w h : Z) (image data : list Z) : Prop :=
  (find_hint cam "coolpixsplit" = false /\ find_hint cam "msb32" = false /\ Z.of_nat (length image) = w * h /\
   Forall (Spec_Packed.fits 12) image /\ exists rest, data = pack 12 image ++ rest) \/
  (find_hint cam "coolpixsplit" = true /\ exists evens odds rest,
     Forall (fun row => Z.of_nat (length row) = w) (evens ++ odds) /\ Forall (Forall (Spec_Packed.fits 12)) (evens ++ odds) /\
     (length odds <= length evens <= S (length odds))%nat /\ h = Z.of_nat (length evens + length odds) /\
     data = pack 12 (concat evens ++ concat odds) ++ rest /\ image = concat (weave evens odds)) \/
  (find_hint cam "coolpixsplit" = false /\ find_hint cam "msb32" = true /\ Z.of_nat (length image) = w * h /\ (w * h) mod 8 = 0 /\
   Forall (Spec_Packed.fits 12) image /\ exists rest, data = swapped 4 (pack 12 image) ++ rest).
(** The levels of white are two fractions, or numbers in a field of Nikon's own, or the
    database says that there are none. *)
Definition four_bytes (vs : list Z) (k : Z) : Z := little_endian_value (firstn 4 (skipn (Z.to_nat k) vs)).
Definition coolpix_field (vs : list Z) (r g b : Z) : Prop :=
  (firstn 3 vs = codes_of "NRW" /\
   exists k, (firstn 4 (skipn 4 vs) = codes_of "0100" /\ k = 1556 \/ firstn 4 (skipn 4 vs) <> codes_of "0100" /\ k = 56) /\
     k + 16 <= Z.of_nat (length vs) /\ r = 4 * four_bytes vs k /\ g = four_bytes vs (k + 4) + four_bytes vs (k + 8) /\ b = 4 * four_bytes vs (k + 12) /\
     r < 2 ^ 32 /\ g < 2 ^ 32 /\ b < 2 ^ 32) \/
  (firstn 3 vs <> codes_of "NRW" /\ 1252 <= Z.of_nat (length vs) /\ r = two_bytes vs 1248 /\ g = 256 /\ b = two_bytes vs 1250).
Inductive coolpix_white (big : bool) (cam : camera) (fs : list field) : (rawimage f32 -> Prop) -> Prop :=
| white_absent : find_hint cam "nowb" = true -> coolpix_white big cam fs (fun img => e0 (i_wb img) = B754_nan /\ e1 (i_wb img) = B754_nan /\ e2 (i_wb img) = B754_nan)
| white_fractions : forall r b more, find_hint cam "nowb" = false -> has_fractions big fs T_NefWB0 (r :: b :: more) ->
    coolpix_white big cam fs (fun img => reads_fraction (e0 (i_wb img)) (fst r) (snd r) /\ nearest (e1 (i_wb img)) 1 /\ reads_fraction (e2 (i_wb img)) (fst b) (snd b))
| white_field : forall vs r g b, find_hint cam "nowb" = false -> has_no fs T_NefWB0 -> has_bytes fs T_NrwWB vs -> coolpix_field vs r g b ->
    coolpix_white big cam fs (fun img => balance img r g b).
