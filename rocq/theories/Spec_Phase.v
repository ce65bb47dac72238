(** Specification of Phase One's compression, independent of the model of the
    program. *)
From Coq Require Import ZArith List Bool.
From Verif Require Import Spec_Bits Spec_Huffman Spec_Ljpeg.
Import ListNotations.
Local Open Scope Z_scope.

(** Every eight columns the encoder chooses, for the even and for the odd
    columns, the number of bits per pixel: one of ten, or the number used before. *)
Definition phase_lengths : list Z := [8; 7; 6; 9; 11; 10; 5; 12; 14; 13].
Definition phase_selector (c : option nat) : list bool :=
  match c with
  | None => [true]
  | Some i => repeat false (S (i / 2)) ++ (if (i / 2 <? 4)%nat then [true] else []) ++ [Nat.odd i]
  end.
Fixpoint phase_length (choice : nat -> option nat) (g : nat) : Z :=
  match choice g with
  | Some i => nth i phase_lengths 0
  | None => match g with O => 0 | S g => phase_length choice g end
  end.
(** A pixel is predicted by the one two columns to the left, 0 in the first two
    columns.  "14" stands for 16 bits without prediction, which is also used in
    the last columns if the width is not a multiple of eight. *)
Definition phase_before (pic : Z -> Z -> Z) (r c : Z) : Z := if c <? 2 then 0 else pic r (c - 2).
Definition phase_bits (choice : Z -> Z -> nat -> option nat) (w r c : Z) : Z :=
  if w - w mod 8 <=? c then 14 else phase_length (choice r (c mod 2)) (Z.to_nat (c / 8)).
Definition phase_word (len v before : Z) : list bool :=
  if len =? 14 then binary 16 v else binary (Z.to_nat len) (v - before + 2 ^ (len - 1) - 1).
Definition phase_pixel (choice : Z -> Z -> nat -> option nat) (pic : Z -> Z -> Z) (w r c : Z) : list bool :=
  (if (c mod 8 =? 0) && (c <? w - w mod 8)
   then phase_selector (choice r 0 (Z.to_nat (c / 8))) ++ phase_selector (choice r 1 (Z.to_nat (c / 8))) else []) ++
  phase_word (phase_bits choice w r c) (pic r c) (phase_before pic r c).
Definition phase_row (choice : Z -> Z -> nat -> option nat) (pic : Z -> Z -> Z) (w r : Z) : list bool :=
  flat_map (phase_pixel choice pic w r) (upto w).
(** The encoder's choices are possible: there are ten lengths, the first group of
    a row has no length to keep, and every difference fits its length. *)
Definition phase_possible (choice : Z -> Z -> nat -> option nat) (pic : Z -> Z -> Z) (w r : Z) : Prop :=
  (forall j g i, choice r j g = Some i -> (i < 10)%nat) /\ (forall j, choice r j 0%nat <> None) /\
  forall c, 0 <= c < w -> sample (pic r c) /\
    let len := phase_bits choice w r c in
    (len = 14 \/ - 2 ^ (len - 1) < pic r c - phase_before pic r c <= 2 ^ (len - 1)).
