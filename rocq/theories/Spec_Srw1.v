(** Specification of Samsung's first compression, independent of the model of the
    program. *)
From Coq Require Import ZArith List Bool.
From Verif Require Import Spec_Bits Spec_Huffman Spec_Ljpeg.
Import ListNotations.
Local Open Scope Z_scope.

(** In every square of two by two pixels the upper right one and the lower left one have
    changed places. *)
Definition samsung_turned (pic : Z -> Z -> Z) (r c : Z) : Z :=
  if Z.even r && Z.odd c then pic (r + 1) (c - 1)
  else if Z.odd r && Z.even c then pic (r - 1) (c + 1)
  else pic r c.

(** Rows are coded in groups of sixteen pixels.  For group [g] of row [r] the encoder
    chooses whether pixels are predicted from above, and the numbers of bits of the
    differences of the first and second half of the pixels in even columns and of
    those in odd columns. *)
Definition samsung_predicted (pic : Z -> Z -> Z) (up : Z -> Z -> bool) (r c : Z) : Z :=
  let g := c / 16 in
  if up r g then
    if r =? 0 then 0 else if Z.even c then pic (r - 1) c else pic (Z.max 0 (r - 2)) c
  else if g =? 0 then 128 else if Z.even c then pic r (16 * g - 2) else pic r (16 * g - 1).
(** How the number of bits is given: the one before, one more, one less, or itself. *)
Definition samsung_length_before (len : Z -> Z -> Z -> Z) (r g i : Z) : Z :=
  if g =? 0 then (if r <? 2 then 7 else 4) else len r (g - 1) i.
Definition samsung_length_fits (op len : Z -> Z -> Z -> Z) (r g i : Z) : Prop :=
  0 <= len r g i <= 32 /\
  (op r g i = 0 /\ len r g i = samsung_length_before len r g i \/
   op r g i = 1 /\ len r g i = samsung_length_before len r g i + 1 \/
   op r g i = 2 /\ len r g i = samsung_length_before len r g i - 1 \/
   op r g i = 3 /\ len r g i < 16).
(** Which of the four numbers of bits a pixel uses *)
Definition samsung_which (c : Z) : Z := 2 * (c mod 2) + c mod 16 / 8.
(** Signed numbers *)
Definition signed_fits (l v : Z) : Prop := if l =? 0 then v = 0 else - 2 ^ (l - 1) <= v < 2 ^ (l - 1).
Definition signed_bits (l v : Z) : list bool := binary (Z.to_nat l) (v mod 2 ^ l).

Definition samsung_group (up : Z -> Z -> bool) (op len : Z -> Z -> Z -> Z) (diff : Z -> Z -> Z) (r g : Z) : list bool :=
  [up r g] ++ flat_map (fun i => binary 2 (op r g i)) (upto 4) ++
  flat_map (fun i => if op r g i =? 3 then binary 4 (len r g i) else []) (upto 4) ++
  flat_map (fun j => let c := 16 * g + 2 * j in signed_bits (len r g (samsung_which c)) (diff r c)) (upto 8) ++
  flat_map (fun j => let c := 16 * g + (2 * j + 1) in signed_bits (len r g (samsung_which c)) (diff r c)) (upto 8).
Definition samsung_groups (w : Z) : Z := (w + 15) / 16.
Definition samsung_row (up : Z -> Z -> bool) (op len : Z -> Z -> Z -> Z) (diff : Z -> Z -> Z) (w r : Z) : list bool :=
  flat_map (samsung_group up op len diff r) (upto (samsung_groups w)).
(** The differences code the picture; the last group may have more pixels than the
    row. *)
Definition samsung_fits (pic : Z -> Z -> Z) (up : Z -> Z -> bool) (op len : Z -> Z -> Z -> Z) (diff : Z -> Z -> Z) (w h : Z) : Prop :=
  (forall r g i, 0 <= r < h -> 0 <= g < samsung_groups w -> 0 <= i < 4 -> samsung_length_fits op len r g i) /\
  (forall r c, 0 <= r < h -> 0 <= c < 16 * samsung_groups w ->
    signed_fits (len r (c / 16) (samsung_which c)) (diff r c) /\ (c < w -> diff r c = pic r c - samsung_predicted pic up r c)).
