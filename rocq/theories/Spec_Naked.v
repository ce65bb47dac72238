(** Files without a header, and Kodak's EasyShare files (C64). *)
From Coq Require Import String ZArith List Bool Reals.
From Flocq Require Import BinarySingleNaN.
From Verif Require Import Base Num F32 Tiff Transform Image Camera Spec_Bits Spec_Packed Spec_Tiff Spec_Camera Spec_Meta Spec_File Spec_Tree Spec_TreeMore.
Import ListNotations.
Local Open Scope Z_scope.

(** ** Without a header *)
(** The size of the file and that of the picture, which the database knows, say how
    many bits a sample has; [rest] is whatever follows the samples. *)
Inductive bare_data (cam : camera) (size w h : Z) : list Z -> list Z -> Prop :=
| bare_rows rows c rest : find_hint cam "12le_16bitaligned" = true -> Z.even w = true -> byte c -> h = Z.of_nat (length rows) ->
    Forall (fun row => Z.of_nat (length row) = w) rows -> Forall (Forall (Spec_Packed.fits 12)) rows ->
    bare_data cam size w h (pack_rows (2 * ((w * 12 / 8 + 1) / 2)) c (pack 12) rows ++ rest) (concat rows)
| bare_12 samples rest : find_hint cam "12le_16bitaligned" = false -> size * 8 / (w * h) = 12 -> (w * h) mod 4 = 0 ->
    Z.of_nat (length samples) = w * h -> Forall (Spec_Packed.fits 12) samples -> bare_data cam size w h (swapped 2 (pack 12 samples) ++ rest) samples
| bare_10 samples rest : find_hint cam "12le_16bitaligned" = false -> size * 8 / (w * h) = 10 -> w mod 8 = 0 ->
    Z.of_nat (length samples) = w * h -> Forall (Spec_Packed.fits 10) samples -> bare_data cam size w h (swapped 2 (pack 10 samples) ++ rest) samples.

(** ** Kodak EasyShare *)
(** Where the picture starts: the fifth and the thirteenth of a list of numbers are
    added; for some cameras there are only two places. *)
Definition easyshare_start (cam : camera) (vs : list Z) : Z :=
  let off := nth 4 vs 0 + nth 12 vs 0 in
  if find_hint cam "easyshare_offset_hack" then (if off <? 0x15000 then 0x15000 else 0x17000) else off.
(** Three numbers, three fractions, or two numbers in a larger block *)
Inductive easyshare_white (big : bool) (fs : list field) : (f32 -> f32 -> f32 -> Prop) -> Prop :=
| ew_numbers r g b : has_numbers fs T_KdcWB [r; g; b] -> easyshare_white big fs (fun x y z => nearest x (IZR r) /\ nearest y (IZR g) /\ nearest z (IZR b))
| ew_fractions ra rb ga gb ba bb : has_fractions big fs T_KdcWB [(ra, rb); (ga, gb); (ba, bb)] ->
    easyshare_white big fs (fun x y z => reads_fraction x ra rb /\ reads_fraction y ga gb /\ reads_fraction z ba bb)
| ew_block vs : has_no fs T_KdcWB -> has_bytes fs T_KodakWB vs -> Z.of_nat (length vs) = 734 \/ Z.of_nat (length vs) = 1502 ->
    easyshare_white big fs (fun x y z => nearest x (IZR (two_bytes vs 148) / 256) /\ nearest y 1 /\ nearest z (IZR (two_bytes vs 150) / 256)).
