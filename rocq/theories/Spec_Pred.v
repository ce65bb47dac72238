(** Specification of formats that code each pixel as its difference from a
    prediction, independent of the model of the program.  A picture gives the
    value of a row and a column. *)
From Coq Require Import ZArith List Bool.
From Verif Require Import Spec_Bits Spec_Huffman Spec_Ljpeg.
Import ListNotations.
Local Open Scope Z_scope.

(** All values are samples. *)
Definition sample_picture (pic : Z -> Z -> Z) (w h : Z) : Prop :=
  forall r c, 0 <= r < h -> 0 <= c < w -> sample (pic r c).

(** ** The nearest pixel of the same colour *)

(** A pixel is predicted by the one two columns to the left; in the first two
    columns by the one two rows above; the four pixels that have neither by
    start values. *)
Definition two_before (start pic : Z -> Z -> Z) (r c : Z) : Z :=
  if c <? 2 then (if r <? 2 then start r c else pic (r - 2) c) else pic r (c - 2).
(** The difference of a pixel, and the code of a picture: row by row, pixel by
    pixel, [word r d] being the word of the difference [d] in row [r]. *)
Definition step_of (start pic : Z -> Z -> Z) (r c : Z) : Z := pic r c - two_before start pic r c.
Definition steps_coded (word : Z -> Z -> list bool) (start pic : Z -> Z -> Z) (w h : Z) : list bool :=
  flat_map (fun r => flat_map (fun c => word r (step_of start pic r c)) (upto w)) (upto h).

(** *** Pentax *)
(** The words of the categories 0 to 12 in files without a table of their own. *)
Definition pentax_code : hcode :=
  mkcode [0; 2; 3; 1; 1; 1; 1; 1; 1; 2; 0; 0; 0; 0; 0; 0] [3; 4; 2; 5; 1; 6; 0; 7; 8; 9; 10; 11; 12].

(** A file may have a table of its own, for the categories below [depth]: a
    number that is [depth] - 12 up to multiples of 16, twelve bytes, the words
    aligned to the left in twelve bits, and their lengths. *)
Definition two_bytes (big : bool) (v : Z) : list Z := if big then [v / 256; v mod 256] else [v mod 256; v / 256].
Definition word_length (h : hcode) (c : Z) : nat := nth (category_word h (Z.to_nat c)) (lengths (hc_counts h)) 0%nat.
Definition word_value (h : hcode) (c : Z) : Z := code_value (lengths (hc_counts h)) (category_word h (Z.to_nat c)).
Definition pentax_note (big : bool) (h : hcode) (depth number : Z) (twelve more : list Z) : list Z :=
  two_bytes big number ++ twelve ++
  flat_map (fun c => two_bytes big (word_value h c * 2 ^ (12 - Z.of_nat (word_length h c)))) (upto depth) ++
  map (fun c => Z.of_nat (word_length h c)) (upto depth) ++ more.
(** Each of the categories below [depth] has one word, of at most twelve bits. *)
Definition pentax_table (h : hcode) (depth : Z) : Prop :=
  code_table (hc_counts h) /\ length (hc_syms h) = length (lengths (hc_counts h)) /\
  Z.of_nat (length (hc_syms h)) = depth /\ NoDup (hc_syms h) /\ Forall (fun s => 0 <= s < depth) (hc_syms h) /\
  Forall (fun l => (l <= 12)%nat) (lengths (hc_counts h)).

(** *** Samsung, second compression *)
(** The words of the categories 0 to 13. *)
Definition samsung_prefix (n : nat) : list bool :=
  let b := map (fun d => d =? 1) in
  b (nth n [[1;1;0;1;0;0]; [1;1;0;1;1]; [1;1;1;1]; [1;1;0;0]; [0;0;0]; [1;0]; [0;1]; [0;0;1]; [1;1;1;0];
            [1;1;0;1;0;1;0]; [1;1;0;1;0;1;1;0]; [1;1;0;1;0;1;1;1;0]; [1;1;0;1;0;1;1;1;1;0]; [1;1;0;1;0;1;1;1;1;1]] []).
Definition samsung_code (d : Z) : list bool := samsung_prefix (category d) ++ binary (category d) (extra d).
