(** Canon files whose directories lie one inside another (C61). *)
From Coq Require Import String ZArith List Bool.
From Verif Require Import Base Num F32 Tiff Transform Image Camera Spec_Bits Spec_Image Spec_Stream Spec_Huffman Spec_Ljpeg Spec_Tiff Spec_Meta Spec_File Spec_Dng Spec_Tree Spec_Canon.
Import ListNotations.
Local Open Scope Z_scope.

(** The fields that describe the picture, and the place of the data.  They are in the
    first directory that has a certain tag, the filter pattern if no directory has it;
    old files have a field with the place instead. *)
Inductive canon_raw (ts : list tree) : list field -> Z -> Prop :=
| raw_by_id : forall t off, directory_with ts T_Cr2Id t -> has_number (visible [t]) T_StripOffsets off -> canon_raw ts (visible [t]) off
| raw_by_pattern : forall t off, has_no (visible ts) T_Cr2Id -> directory_with ts T_CFAPattern t -> has_number (visible [t]) T_StripOffsets off ->
    canon_raw ts (visible [t]) off
| raw_by_offset : forall off rest, has_no (visible ts) T_Cr2Id -> has_no (visible ts) T_CFAPattern -> has_numbers (visible ts) T_Cr2OldOffset (off :: rest) ->
    canon_raw ts (visible ts) off.

(** The number of the sample in row [r] and column [c], in the order in which they
    are written: row by row, or stripe by stripe. *)
Inductive canon_place (fs : list field) (w h : Z) : (Z -> Z -> Z) -> Prop :=
| by_rows : has_no fs T_Cr2StripeWidths \/ (exists rest, has_numbers fs T_Cr2StripeWidths (0 :: rest)) -> canon_place fs w h (fun r c => r * w + c)
| by_stripes : forall k sw last_ rest, has_numbers fs T_Cr2StripeWidths (k :: sw :: last_ :: rest) -> 0 < k -> 0 < sw -> k * sw + last_ = w ->
    canon_place fs w h (stripe_place k sw last_ h).
(** Some cameras write two rows as one. *)
Definition canon_size (double : bool) (jw jh w h : Z) : Prop := if double then jw = 2 * w /\ h = 2 * jh else jw = w /\ h = jh.
