(** Specification vocabulary for formats that encrypt, turn, interlace or cut up
    the sensor picture.  Independent of the model of the program. *)
From Coq Require Import ZArith List Bool.
From Verif Require Import Spec_Bits Spec_Image Spec_Huffman Spec_Ljpeg.
Import ListNotations.
Local Open Scope Z_scope.

(** ** The Sony key stream *)

(** [count] bytes of [l] from position [pos] on, as a little endian number. *)
Definition word_at (l : list Z) (pos : Z) : Z := little_endian_value (firstn 4 (skipn (Z.to_nat pos) l)).

(** Shift a 32-bit word left by one, taking in the top bit of another. *)
Definition shift_one (a b : Z) : Z := (2 * a) mod 2 ^ 32 + b / 2 ^ 31.

(** Two words of four bytes in opposite order. *)
Definition opposite (v u : Z) : Prop :=
  exists l, bytes l /\ length l = 4%nat /\ big_endian_value l = v /\ little_endian_value l = u.

(** The sequence of words made from a key: a linear congruential generator [m],
    127 mixed words [w], and the lagged sequence [s] whose words from number 127
    on are the key stream. *)
Record sony_sequence (key : Z) (s : nat -> Z) : Prop := {
  sony_words : exists m w : nat -> Z,
    m 0%nat = key /\ (forall n, m (S n) = (m n * 48828125 + 1) mod 2 ^ 32) /\
    w 0%nat = m 1%nat /\ w 1%nat = m 2%nat /\ w 2%nat = m 3%nat /\
    w 3%nat = shift_one (m 4%nat) (Z.lxor (w 0%nat) (w 2%nat)) /\
    (forall n, (n + 4 < 127)%nat ->
       w (n + 4)%nat = shift_one (Z.lxor (w n) (w (n + 2)%nat)) (Z.lxor (w (n + 1)%nat) (w (n + 3)%nat))) /\
    (forall n, (n < 127)%nat -> opposite (w n) (s n));
  sony_lag : forall n, s (n + 127)%nat = Z.lxor (s n) (s (n + 64)%nat) }.

(** ** Pictures turned by 45 degrees *)

(** Where pixel (row, column) of a [cw] wide picture goes.  One step to the right
    goes one up and one to the right; two steps down go one down and one to the
    right. *)
Definition turned (cw : Z) (r c : Z) : Z * Z := (cw - 1 - c + r / 2, (r + 1) / 2 + c).
(** The other orientation of the sensor: one step down goes one down and one to
    the right, two steps to the right go one up and one to the right. *)
Definition turned_alt (cw : Z) (r c : Z) : Z * Z := (cw / 2 - 1 - c / 2 + r, (c + 1) / 2 + r).

(** [img], [w] pixels wide and [h] high, holds at [place r c] the pixel [pix r c]
    for each row and column of a [cw] x [ch] picture, and 0 elsewhere. *)
Definition placed (img : list Z) (w h cw ch : Z) (place : Z -> Z -> Z * Z) (pix : Z -> Z -> Z) : Prop :=
  exists all, is_image img w h all /\
    (forall r c, 0 <= r < ch -> 0 <= c < cw ->
       0 <= fst (place r c) < h /\ 0 <= snd (place r c) < w /\
       all (fst (place r c)) (snd (place r c)) = pix r c) /\
    (forall y x, 0 <= y < h -> 0 <= x < w ->
       (forall r c, 0 <= r < ch -> 0 <= c < cw -> place r c <> (y, x)) -> all y x = 0).

(** No two pixels of a [cw] x [ch] picture go to the same place. *)
Definition one_to_one (cw ch : Z) (place : Z -> Z -> Z * Z) : Prop :=
  forall r c r' c', 0 <= r < ch -> 0 <= c < cw -> 0 <= r' < ch -> 0 <= c' < cw ->
    place r c = place r' c' -> r = r' /\ c = c'.

(** ** Interlaced lines *)

(** Line number [i] of the data: the lines come alternately from the top and
    from the bottom of the picture. *)
Definition interlaced (h i : Z) : Z := if Z.even i then i / 2 else h - 1 - i / 2.

(** ** Stripes *)

(** Pictures side by side; 0 to the right of them. *)
Fixpoint side_by_side (parts : list (Z * (Z -> Z -> Z))) (r c : Z) : Z :=
  match parts with
  | [] => 0
  | (w, pix) :: t => if c <? w then pix r c else side_by_side t r (c - w)
  end.
Definition total_width (parts : list (Z * (Z -> Z -> Z))) : Z := sum (map fst parts).

(** Data of [lw] samples per line read two lines at a time: column pair [n] has
    the three samples of the upper ([s] = 0) and of the lower ([s] = 1) line. *)
Definition two_lines (pix : Z -> Z -> Z) (lw n s k : Z) : Z :=
  pix (2 * (n / (lw / 3)) + s) (3 * (n mod (lw / 3)) + k).

(** Stripes of [fw] samples and [h] lines filled from such data one after the
    other, line pair by line pair. *)
Definition two_line_stripes (pix : Z -> Z -> Z) (lw fw nf h : Z) (r c : Z) : Z :=
  if c <? nf * fw
  then two_lines pix lw ((c / fw * (h / 2) + r / 2) * (fw / 3) + c mod fw / 3) (r mod 2) (c mod 3)
  else 0.

(** ** Sony ARW 1 *)

(** The code word of a category. *)
Definition arw1_prefix (n : nat) : list bool :=
  match n with
  | 0%nat => [false; true; true]
  | 1%nat => [true; true]
  | 2%nat => [true; false]
  | 3%nat => [false; true; false]
  | _ => [false; false] ++ repeat false (n - 4) ++ (if (n <? 17)%nat then [true] else [])
  end.
Definition arw1_code (d : Z) : list bool := arw1_prefix (category d) ++ binary (category d) (extra d).

(** The columns are coded from right to left; of each the even rows come first,
    then the odd rows. *)
Definition arw1_order (w h : Z) : list (Z * Z) :=
  flat_map (fun x => map (fun i => (2 * i, w - 1 - x)) (upto (h / 2)) ++
                     map (fun i => (2 * i + 1, w - 1 - x)) (upto (h / 2))) (upto w).
(** Each value is coded as the difference from the one before. *)
Fixpoint differences (before : Z) (l : list Z) : list Z :=
  match l with
  | [] => []
  | v :: t => (v - before) :: differences v t
  end.
