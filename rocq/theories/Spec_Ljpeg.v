(** Specification of lossless JPEG (ITU T.81 annex H) with interleaved
    components and the first predictor, independent of the model of the
    program. *)
From Coq Require Import ZArith List Bool.
From Verif Require Import Spec_Bits Spec_Huffman.
Import ListNotations.
Local Open Scope Z_scope.

(** 0, 1, ..., n-1 *)
Definition upto (n : Z) : list Z := map Z.of_nat (seq 0 (Z.to_nat n)).

(** A picture: the sample of a row, a pixel of the row and a component. *)
Definition picture := Z -> Z -> Z -> Z.

(** A sample is predicted by the one to the left; in the first column by the
    one above; in the first column of the first row by a constant. *)
Definition prediction (base : Z) (pic : picture) (r j i : Z) : Z :=
  if j =? 0 then (if r =? 0 then base else pic (r - 1) 0 i) else pic r (j - 1) i.

(** Differences are taken modulo 2^16, between -32768 and 32767. *)
Definition wrap16 (d : Z) : Z := (d + 32768) mod 65536 - 32768.
Definition residual (base : Z) (pic : picture) (r j i : Z) : Z :=
  wrap16 (pic r j i - prediction base pic r j i).

(** A Huffman table: counts of words and symbols; the word of a category. *)
Record hcode := mkcode { hc_counts : list Z; hc_syms : list Z }.
Fixpoint position (x : Z) (l : list Z) : nat :=
  match l with [] => 0 | y :: t => if y =? x then 0 else S (position x t) end.
Definition category_word (h : hcode) (c : nat) : nat := position (Z.of_nat c) (hc_syms h).
Definition code_of (h : hcode) (d : Z) : list bool :=
  encode_diff (lengths (hc_counts h)) (category_word h) d.

(** Tables the program accepts and reads correctly (see C16, C17).  [dbg]: it
    was built with overflow checks. *)
Definition good_code (dbg : bool) (prec : Z) (h : hcode) : Prop :=
  code_table (hc_counts h) /\ symbols_for (hc_counts h) (hc_syms h) /\ (dbg = true -> not_full (hc_counts h)) /\
  (prec < 16 \/ nth 15 (hc_counts h) 0 = 0 \/ 65528 < space 16 (lengths (hc_counts h)) \/
   Z.of_nat (length (hc_syms h)) + 65528 - space 16 (lengths (hc_counts h)) <= 255) /\
  short_16 (lengths (hc_counts h)) (hc_syms h).
(** The table has a word, of readable length, for the difference. *)
Definition has_word (prec : Z) (h : hcode) (d : Z) : Prop :=
  In (Z.of_nat (category d)) (hc_syms h) /\ decodable prec (lengths (hc_counts h)) (category_word h (category d)).

(** The entropy-coded data of a picture of [w] x [h] pixels of [n] components:
    row by row, pixel by pixel, component by component. *)
Definition coded_pixel (codes : Z -> hcode) (n base : Z) (pic : picture) (r j : Z) : list bool :=
  flat_map (fun i => code_of (codes i) (residual base pic r j i)) (upto n).
Definition coded_row (codes : Z -> hcode) (n base : Z) (pic : picture) (w r : Z) : list bool :=
  flat_map (coded_pixel codes n base pic r) (upto w).
Definition coded (codes : Z -> hcode) (n base : Z) (pic : picture) (w h : Z) : list bool :=
  flat_map (coded_row codes n base pic w) (upto h).

(** All its differences have words. *)
Definition codable (prec : Z) (codes : Z -> hcode) (n base : Z) (pic : picture) (w h : Z) : Prop :=
  forall r j i, 0 <= r < h -> 0 <= j < w -> 0 <= i < n -> has_word prec (codes i) (residual base pic r j i).
Definition picture_of_samples (pic : picture) (n w h : Z) : Prop :=
  forall r j i, 0 <= r < h -> 0 <= j < w -> 0 <= i < n -> sample (pic r j i).

(** [out'] is [out] with the rectangle of [w] x [h] pixels of [n] samples whose
    first sample is number [x], in rows of [stride] samples, replaced by the
    picture. *)
Definition pasted (n x stride w h : Z) (pic : picture) (out out' : list Z) : Prop :=
  length out' = length out /\
  (forall r j i, 0 <= r < h -> 0 <= j < w -> 0 <= i < n ->
     nth (Z.to_nat (r * stride + x + n * j + i)) out' 0 = pic r j i) /\
  (forall k, (forall r c, 0 <= r < h -> 0 <= c < n * w -> Z.of_nat k <> r * stride + x + c) ->
     nth k out' 0 = nth k out 0).

(** ** Files *)
Definition u16be (v : Z) : list Z := [v / 256; v mod 256].

(** Byte stuffing. *)
Definition stuff (l : list Z) : list Z := flat_map (fun b => if b =? 255 then [255; 0] else [b]) l.

(** DHT: tables number 0, 1, ... *)
Definition dht_table (i : Z) (h : hcode) : list Z := i :: hc_counts h ++ hc_syms h.
Definition dht_tables (hs : list hcode) : list Z :=
  concat (map (fun '(i, h) => dht_table (Z.of_nat i) h) (combine (seq 0 (length hs)) hs)).
Definition dht_segment (hs : list hcode) : list Z :=
  [255; 196] ++ u16be (2 + Z.of_nat (length (dht_tables hs))) ++ dht_tables hs.
(** SOF3: precision, size, number of components; identifier, sampling factors 1
    and 1 and no quantisation table for each. *)
Definition sof_segment (prec w h : Z) (ids : list Z) : list Z :=
  [255; 195] ++ u16be (8 + 3 * Z.of_nat (length ids)) ++ [prec] ++ u16be h ++ u16be w ++
  [Z.of_nat (length ids)] ++ flat_map (fun id => [id; 17; 0]) ids.
(** SOS: identifier and table of each component; predictor, 0, point transform. *)
Definition sos_segment (ids tables : list Z) (predictor pt : Z) : list Z :=
  [255; 218] ++ u16be (6 + 2 * Z.of_nat (length ids)) ++ [Z.of_nat (length ids)] ++
  flat_map (fun '(id, t) => [id; 16 * t]) (combine ids tables) ++ [predictor; 0; pt].

Definition jpeg_file (hs : list hcode) (prec w h : Z) (ids tables : list Z) (pt : Z) (data tail : list Z) : list Z :=
  [255; 216] ++ dht_segment hs ++ sof_segment prec w h ids ++ sos_segment ids tables 1 pt ++
  stuff data ++ [255; 217] ++ tail.

(** ** Subsampled colour *)

(** Blocks of two pixels in one row ([v] = 1) or four pixels in two rows
    ([v] = 2) share their colour.  A block is coded as its luminance samples,
    number 0 to 2v-1, from left to right and from top to bottom, followed by the
    two colour samples, number 2v and 2v+1.  A luminance sample is predicted by
    the one coded before it in the row of blocks; otherwise prediction is as
    above. *)
Definition sub_prediction (v base : Z) (pic : picture) (r j i : Z) : Z :=
  if i =? 0 then (if j =? 0 then (if r =? 0 then base else pic (r - 1) 0 0) else pic r (j - 1) (2 * v - 1))
  else if i <? 2 * v then pic r j (i - 1)
  else prediction base pic r j i.
Definition sub_residual (v base : Z) (pic : picture) (r j i : Z) : Z :=
  wrap16 (pic r j i - sub_prediction v base pic r j i).
(** Component 0 is luminance, components 1 and 2 are colour. *)
Definition sub_component (v i : Z) : Z := if i <? 2 * v then 0 else i - 2 * v + 1.
Definition sub_block (codes : Z -> hcode) (v base : Z) (pic : picture) (r j : Z) : list bool :=
  flat_map (fun i => code_of (codes (sub_component v i)) (sub_residual v base pic r j i)) (upto (2 * v + 2)).
Definition sub_coded (codes : Z -> hcode) (v base : Z) (pic : picture) (w h : Z) : list bool :=
  flat_map (fun r => flat_map (sub_block codes v base pic r) (upto w)) (upto h).
Definition sub_codable (prec : Z) (codes : Z -> hcode) (v base : Z) (pic : picture) (w h : Z) : Prop :=
  forall r j i, 0 <= r < h -> 0 <= j < w -> 0 <= i < 2 * v + 2 ->
    has_word prec (codes (sub_component v i)) (sub_residual v base pic r j i).
(** The picture with three samples for each pixel: sample [q] of row [R]. *)
Definition sub_sample (v : Z) (pic : picture) (R q : Z) : Z :=
  let r := R / v in let j := q / 6 in let pixel := (q mod 6) / 3 in
  match q mod 3 with
  | 0 => pic r j (2 * (R mod v) + pixel)
  | 1 => pic r j (2 * v)
  | _ => pic r j (2 * v + 1)
  end.

(** ** Hasselblad *)

(** Samples are coded in pairs: the words of both categories come before the
    extra bits.  Every row starts from 32768, and one table is used for both. *)
Definition hass_prediction (pic : picture) (r j i : Z) : Z := if j =? 0 then 32768 else pic r (j - 1) i.
Definition hass_residual (pic : picture) (r j i : Z) : Z := wrap16 (pic r j i - hass_prediction pic r j i).
Definition word_of (h : hcode) (d : Z) : list bool := codeword (lengths (hc_counts h)) (category_word h (category d)).
Definition extra_of (d : Z) : list bool := if (category d =? 16)%nat then [] else binary (category d) (extra d).
Definition hass_pair (h : hcode) (d1 d2 : Z) : list bool := word_of h d1 ++ word_of h d2 ++ extra_of d1 ++ extra_of d2.
Definition hass_coded (c : hcode) (pic : picture) (w h : Z) : list bool :=
  flat_map (fun r => flat_map (fun j => hass_pair c (hass_residual pic r j 0) (hass_residual pic r j 1)) (upto w)) (upto h).
Definition hass_samples (pic : picture) (w h : Z) : list Z :=
  flat_map (fun r => flat_map (fun j => [pic r j 0; pic r j 1]) (upto w)) (upto h).

(** There is a marker at position [p]: the byte FF followed by a byte other than
    0 (which marks a data byte FF) and other than FF (which is filling). *)
Definition marker_at (buf : list Z) (p : Z) : Prop :=
  nth (Z.to_nat p) buf 0 = 255 /\ nth (Z.to_nat (p + 1)) buf 0 <> 0 /\ nth (Z.to_nat (p + 1)) buf 0 <> 255.

(** ** Files with sampling factors and other predictors *)
(** SOF3 with the sampling factors, horizontal and vertical, of each component *)
Definition sof_sampled (prec w h : Z) (comps : list (Z * (Z * Z))) : list Z :=
  [255; 195] ++ u16be (8 + 3 * Z.of_nat (length comps)) ++ [prec] ++ u16be h ++ u16be w ++
  [Z.of_nat (length comps)] ++ flat_map (fun '(id, (a, b)) => [id; 16 * a + b; 0]) comps.
(** [scan] is the entropy-coded data with what follows. *)
Definition jpeg_sampled (hs : list hcode) (prec w h : Z) (comps : list (Z * (Z * Z))) (tables : list Z) (predictor pt : Z) (scan : list Z) : list Z :=
  [255; 216] ++ dht_segment hs ++ sof_sampled prec w h comps ++ sos_segment (map fst comps) tables predictor pt ++ scan.
