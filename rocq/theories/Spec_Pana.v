(** Specification of Panasonic's compression, independent of the model of the
    program. *)
From Coq Require Import ZArith List Bool.
From Verif Require Import Spec_Bits Spec_Huffman Spec_Ljpeg.
Import ListNotations.
Local Open Scope Z_scope.

(** Fourteen pixels [v 0], ..., [v 13] are coded in 128 bits.  The encoder chooses
    four shifts, used from pixels 2, 5, 8 and 11 on, and a byte for every pixel but
    the first of its parity. *)
Definition pana_shift (choice : Z -> Z) (i : Z) : Z := nth (Z.to_nat (choice ((i + 1) / 3))) [0; 1; 2; 4] 0.
(** Of each parity, pixels that are 0 may come first. *)
Definition pana_started (v : Z -> Z) (i : Z) : bool :=
  existsb (fun k => (k mod 2 =? i mod 2) && negb (v k =? 0)) (upto i).
Definition pana_before (v : Z -> Z) (i : Z) : Z := if i <? 2 then 0 else v (i - 2).
(** What the byte is counted from *)
Definition pana_base (s before : Z) : Z :=
  if (before <? 128 * 2 ^ s) || (s =? 4) then before mod 2 ^ s else before - 128 * 2 ^ s.
Definition pana_pixel_coded (choice byte v : Z -> Z) (i : Z) : list bool :=
  (if i mod 3 =? 2 then binary 2 (choice ((i + 1) / 3)) else []) ++
  (if pana_started v i then binary 8 (byte i)
   else if (v i =? 0) && (i <? 12) then binary 8 0
   else binary 12 (v i)).
Definition pana_group_coded (choice byte v : Z -> Z) : list bool :=
  flat_map (pana_pixel_coded choice byte v) (upto 14).
(** The choices represent the pixels. *)
Definition pana_pixel_fits (choice byte v : Z -> Z) (i : Z) : Prop :=
  0 <= choice ((i + 1) / 3) < 4 /\ sample (v i) /\
  if pana_started v i then
    (byte i = 0 /\ v i = pana_before v i) \/
    (0 < byte i < 256 /\ v i = pana_base (pana_shift choice i) (pana_before v i) + byte i * 2 ^ pana_shift choice i)
  else 0 <= v i < 4096 /\ (i < 12 -> v i <> 0 -> 16 <= v i).
Definition pana_group_fits (choice byte v : Z -> Z) : Prop :=
  forall i, 0 <= i < 14 -> pana_pixel_fits choice byte v i.

(** The pixels of a picture, row by row, in groups of fourteen *)
Definition pana_values (pic : Z -> Z -> Z) (w g i : Z) : Z := pic ((14 * g + i) / w) ((14 * g + i) mod w).

(** Where byte number [j] of the data is.  Some files swap two unequal parts of every
    16384 bytes. *)
Definition pana_place (split : bool) (j : Z) : Z :=
  if split then 16384 * (j / 16384) + (j mod 16384 + 8184) mod 16384 else j.
(** The bytes of a group are written backwards. *)
Definition pana_group_bytes (split : bool) (buf : list Z) (g : Z) : list Z :=
  map (fun i => nth (Z.to_nat (pana_place split (16 * g + 15 - i))) buf 0) (upto 16).
