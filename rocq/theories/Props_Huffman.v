(** Properties C16-C18: Huffman codes and lossless JPEG differences. *)
From Coq Require Import String ZArith List Bool Lia.
From Verif Require Import Base Pumps Huffman Spec_Bits Spec_Pump Spec_Stream Spec_Huffman P_Huff5 P_Huff6 P_Huff7.
Import ListNotations.
Local Open Scope Z_scope.

(** ** C16: canonical Huffman codes *)

(** Data that start with the code words of some symbols decode to exactly those
    symbols, and the reader is left at the first bit after the last word. *)
Theorem C16_decodes : forall {M : Mode} counts syms prec dng t,
  code_table counts -> symbols_for counts syms -> (debug = true -> not_full counts) ->
  huff_new (0 :: counts) (padded syms) prec dng = Ok t ->
  forall k ks buf pad rest m, k <> LSB -> readable k buf ->
  stream k buf pad = encode (lengths counts) ks ++ rest ->
  (8 <= length rest)%nat -> (m <= 32)%nat -> (m <= length rest)%nat ->
  Forall (fun j => (j < length (lengths counts))%nat /\ decodable prec (lengths counts) j) ks ->
  read_symbols k t buf (length ks) m = Ok (map (fun j => nth j syms 0) ks, number (firstn m rest)).
Proof. exact @new_symbols. Qed.
Print Assumptions C16_decodes.

(** Data that start with none of the code words are refused. *)
Theorem C16_refuses : forall {M : Mode} counts syms prec dng t,
  code_table counts -> symbols_for counts syms -> (debug = true -> not_full counts) ->
  huff_new (0 :: counts) (padded syms) prec dng = Ok t ->
  forall k buf pad n m, k <> LSB -> readable k buf -> prec <= 16 -> (17 <= length (stream k buf pad))%nat ->
  (forall j, (j < length (lengths counts))%nat -> decodable prec (lengths counts) j ->
     firstn (nth j (lengths counts) 0%nat) (stream k buf pad) <> codeword (lengths counts) j) ->
  read_symbols k t buf (S n) m = Err "ljpeg: bad Huffman code"%string.
Proof. exact @new_refuses. Qed.
Print Assumptions C16_refuses.

(** No code word is the beginning of another. *)
Theorem C16_prefix_free : forall counts j j', code_table counts ->
  (j < length (lengths counts))%nat -> (j' < length (lengths counts))%nat ->
  (exists r, codeword (lengths counts) j' = codeword (lengths counts) j ++ r) -> j = j'.
Proof. exact prefix_free. Qed.
Print Assumptions C16_prefix_free.

(** Well-formed tables are accepted, except (see below) full ones with words of
    16 bits, in debug builds, and some with words of 16 bits at precision 16. *)
Theorem C16_accepts_partial : forall {M : Mode} counts syms prec dng,
  code_table counts -> symbols_for counts syms -> 0 <= prec <= 16 -> (debug = true -> not_full counts) ->
  (prec < 16 \/ nth 15 counts 0 = 0 \/ 65528 < space 16 (lengths counts) \/
   Z.of_nat (length syms) + 65528 - space 16 (lengths counts) <= 255) ->
  exists t, huff_new (0 :: counts) (padded syms) prec dng = Ok t.
Proof. exact @new_builds. Qed.
Print Assumptions C16_accepts_partial.

(** The table of JPEG's annex K.3 for luminance DC, and a stream of its words. *)
Definition dc_counts : list Z := [0; 1; 5; 1; 1; 1; 1; 1; 1; 0; 0; 0; 0; 0; 0; 0].
Definition dc_symbols : list Z := [0; 1; 2; 3; 4; 5; 6; 7; 8; 9; 10; 11].
Lemma dc_table : code_table dc_counts /\ symbols_for dc_counts dc_symbols /\ not_full dc_counts.
Proof.
  split; [table_tac|]. split; [split; [reflexivity|repeat constructor; discriminate]|left; reflexivity].
Qed.
Lemma dc_built : forall {M : Mode}, exists t, huff_new (0 :: dc_counts) (padded dc_symbols) 14 false = Ok t.
Proof.
  intros M. destruct dc_table as [A [B C]].
  apply C16_accepts_partial; [assumption|assumption|lia|auto|left; lia].
Qed.
Example C16_codewords_ex : map (codeword (lengths dc_counts)) [0; 1; 6; 11]%nat =
  [[false; false]; [false; true; false]; [true; true; true; false];
   [true; true; true; true; true; true; true; true; false]].
Proof. vm_compute. reflexivity. Qed.
(** Words 11, 0, 6, 1 and then 10101...: 11111111 0 00 1110 010 101010 10101010. *)
Example C16_decodes_ex : forall M : Mode, exists t, huff_new (0 :: dc_counts) (padded dc_symbols) 14 false = Ok t /\
  read_symbols JPEG t [255; 0; 28; 170; 170] 4 5 = Ok ([11; 0; 6; 1], 21).
Proof.
  intros M. destruct dc_table as [A [B C]]. destruct dc_built as [t E]. exists t. split; [exact E|].
  rewrite (C16_decodes dc_counts dc_symbols 14 false t A B (fun _ => C) E JPEG [11; 0; 6; 1]%nat [255; 0; 28; 170; 170] 0
    [true; false; true; false; true; false; true; false; true; false; true; false; true; false]).
  - reflexivity.
  - discriminate.
  - split; [repeat constructor; discriminate|]. intros _. split; [split; [discriminate|reflexivity]|discriminate].
  - vm_compute. reflexivity.
  - cbn; lia.
  - lia.
  - cbn; lia.
  - repeat (apply Forall_cons; [split; [apply Nat.ltb_lt; reflexivity|first [left; apply Nat.leb_le; reflexivity|right; split; [apply Z.leb_le; reflexivity|intros [H _]; discriminate]]]|]). apply Forall_nil.
Qed.
(** A stream of ones starts with no word of that table. *)
Example C16_refuses_ex : forall M : Mode, exists t, huff_new (0 :: dc_counts) (padded dc_symbols) 14 false = Ok t /\
  read_symbols MSB t [255; 255; 255; 255] 1 0 = Err "ljpeg: bad Huffman code"%string.
Proof.
  intros M. destruct dc_table as [A [B C]]. destruct dc_built as [t E]. exists t. split; [exact E|].
  apply (C16_refuses dc_counts dc_symbols 14 false t A B (fun _ => C) E MSB [255; 255; 255; 255] 0 0 0).
  - discriminate.
  - split; [repeat constructor; discriminate|discriminate].
  - lia.
  - cbn; lia.
  - intros j Hj _. change (length (lengths dc_counts)) with 12%nat in Hj.
    do 12 (destruct j as [|j]; [vm_compute; discriminate|]). lia.
Qed.

(** A complete code with words of 16 bits is well formed, yet building its
    table fails in debug builds. *)
Theorem C16_full_table_refuted : exists counts syms, code_table counts /\ symbols_for counts syms /\
  huff_new (M := true) (0 :: counts) (padded syms) 16 false = Panic.
Proof. exact (ex_intro _ full_counts (ex_intro _ _ full_panics)). Qed.
Print Assumptions C16_full_table_refuted.
(** So does, in all builds, a code that has one word, of 16 bits. *)
Theorem C16_sixteen_bits_refuted : exists counts syms, code_table counts /\ symbols_for counts syms /\ not_full counts /\
  forall M : Mode, huff_new (0 :: counts) (padded syms) 16 false = Panic.
Proof. exact (ex_intro _ one16 (ex_intro _ _ one16_panics)). Qed.
Print Assumptions C16_sixteen_bits_refuted.
(** The last of 256 words is not recognised if it is alone in its length. *)
Theorem C16_last_word_refuted : exists counts syms j buf, code_table counts /\ symbols_for counts syms /\
  (j < length (lengths counts))%nat /\ Z.of_nat (nth j (lengths counts) 0%nat) <= 14 /\ readable JPEG buf /\
  (exists r, bits_of (unstuff buf) = codeword (lengths counts) j ++ r) /\
  forall (M : Mode) t, huff_new (0 :: counts) (padded syms) 14 false = Ok t ->
    read_symbols JPEG t buf 1 0 = Err "ljpeg: bad Huffman code"%string.
Proof. exact last_word_refused. Qed.
Print Assumptions C16_last_word_refuted.

(** ** C17: the 13-bit shortcut *)

(** Differences decode the same way with and without the shortcut: same values,
    same reader position afterwards (seen from the next [m] bits), same errors.
    The hypotheses on category 16 are needed, see below. *)
Theorem C17_shortcut_transparent : forall {M : Mode} counts syms prec dng t,
  code_table counts -> symbols_for counts syms -> (debug = true -> not_full counts) ->
  huff_new (0 :: counts) (padded syms) prec dng = Ok t ->
  0 <= prec <= 16 -> short_16 (lengths counts) syms -> (dng = true -> ~ In 16 syms) ->
  forall k buf pad n m, k <> LSB -> readable k buf -> (m <= 32)%nat ->
  (33 * n + 33 <= length (stream k buf pad))%nat ->
  read_diffs k t buf n m = read_diffs k (without_bigtable t) buf n m.
Proof. exact @new_fast_slow. Qed.
Print Assumptions C17_shortcut_transparent.
(** For JPEG data no length is needed, since zeros follow the data. *)
Theorem C17_shortcut_transparent_jpeg : forall {M : Mode} counts syms prec dng t,
  code_table counts -> symbols_for counts syms -> (debug = true -> not_full counts) ->
  huff_new (0 :: counts) (padded syms) prec dng = Ok t ->
  0 <= prec <= 16 -> short_16 (lengths counts) syms -> (dng = true -> ~ In 16 syms) ->
  forall buf n m, readable JPEG buf -> (m <= 32)%nat ->
  read_diffs JPEG t buf n m = read_diffs JPEG (without_bigtable t) buf n m.
Proof. exact @new_fast_slow_jpeg. Qed.
Print Assumptions C17_shortcut_transparent_jpeg.
Example C17_shortcut_ex : forall M : Mode, exists t, huff_new (0 :: dc_counts) (padded dc_symbols) 14 false = Ok t /\
  short_16 (lengths dc_counts) dc_symbols /\
  read_diffs JPEG t [255; 0; 28; 170; 170] 4 5 = read_diffs JPEG (without_bigtable t) [255; 0; 28; 170; 170] 4 5.
Proof.
  intros M. destruct dc_table as [A [B C]]. destruct dc_built as [t E]. exists t. split; [exact E|].
  assert (S : short_16 (lengths dc_counts) dc_symbols).
  { intros j Hj. change (length (lengths dc_counts)) with 12%nat in Hj.
    do 12 (destruct j as [|j]; [cbn; lia|]). lia. }
  split; [exact S|].
  apply (C17_shortcut_transparent_jpeg dc_counts dc_symbols 14 false t A B (fun _ => C) E); [lia|exact S|discriminate| |lia].
  split; [repeat constructor; discriminate|]. intros _. split; [split; [discriminate|reflexivity]|discriminate].
Qed.

(** With a word of more than 13 bits for category 16 the shortcut makes up a
    difference where there is no code word. *)
Theorem C17_long_word_refuted : exists counts syms, code_table counts /\ symbols_for counts syms /\ not_full counts /\
  forall M : Mode, exists t buf, huff_new (0 :: counts) (padded syms) 14 false = Ok t /\
    read_diffs JPEG t buf 1 0 = Ok ([-32768], 0) /\
    read_diffs JPEG (without_bigtable t) buf 1 0 = Err "ljpeg: bad Huffman code"%string.
Proof. exact long_word_refuted. Qed.
Print Assumptions C17_long_word_refuted.
(** With the DNG variant and a word for category 16 the shortcut drops bits the
    reader has not fetched, and fails where the slow decoder succeeds. *)
Theorem C17_dng_refuted : exists counts syms, code_table counts /\ symbols_for counts syms /\ not_full counts /\
  forall M : Mode, debug = true -> exists t buf, huff_new (0 :: counts) (padded syms) 14 true = Ok t /\
    read_diffs JPEG t buf 2 0 = Panic /\
    read_diffs JPEG (without_bigtable t) buf 2 0 = Ok ([-32768; -32768], 0).
Proof. exact dng_refuted. Qed.
Print Assumptions C17_dng_refuted.

(** ** C18: differences *)

(** Every difference has exactly one category and extra bits. *)
Theorem C18_unique_code : forall d, exists n v, (0 <= v < 2 ^ Z.of_nat n /\ difference n v = d) /\
  forall n' v', 0 <= v' < 2 ^ Z.of_nat n' -> difference n' v' = d -> n' = n /\ v' = v.
Proof.
  exact (fun d => ex_intro _ (category d) (ex_intro _ (extra d)
    (conj (difference_extra d) (fun n' v' H E => difference_unique n' v' d H E)))).
Qed.
Print Assumptions C18_unique_code.
(** The categories are those of magnitudes: up to n bits, below 2^n. *)
Theorem C18_magnitude : forall n v, 0 <= v < 2 ^ Z.of_nat n -> difference n v <> 0 ->
  2 ^ Z.of_nat n <= 2 * Z.abs (difference n v) < 2 * 2 ^ Z.of_nat n.
Proof. exact difference_magnitude. Qed.
Print Assumptions C18_magnitude.
Example C18_unique_code_ex : map (fun v => difference 3 v) [0; 1; 2; 3; 4; 5; 6; 7] = [-7; -6; -5; -4; 4; 5; 6; 7].
Proof. reflexivity. Qed.

(** Data that start with the codes of some differences decode to exactly those
    differences, with the shortcut and without it. *)
Theorem C18_round_trip : forall {M : Mode} counts syms prec dng t,
  code_table counts -> symbols_for counts syms -> (debug = true -> not_full counts) ->
  huff_new (0 :: counts) (padded syms) prec dng = Ok t ->
  0 <= prec <= 16 -> short_16 (lengths counts) syms -> (dng = true -> ~ In 16 syms) ->
  forall u k index ds buf pad rest m, u = t \/ u = without_bigtable t -> k <> LSB -> readable k buf ->
  stream k buf pad = flat_map (encode_diff (lengths counts) index) ds ++ rest ->
  (32 <= length rest)%nat -> (m <= 32)%nat ->
  Forall (fun d => -32768 <= d <= 32767 /\
    (index (category d) < length (lengths counts))%nat /\ nth (index (category d)) syms 0 = Z.of_nat (category d) /\
    decodable prec (lengths counts) (index (category d))) ds ->
  read_diffs k u buf (length ds) m = Ok (ds, number (firstn m rest)).
Proof. exact @new_diffs. Qed.
Print Assumptions C18_round_trip.
(** -3 is 011 00 and 1 is 010 1: 01100010 10000000 *)
Example C18_round_trip_ex : forall M : Mode, exists t, huff_new (0 :: dc_counts) (padded dc_symbols) 14 false = Ok t /\
  read_diffs JPEG t [98; 128; 0; 0] 2 8 = Ok ([-3; 1], 0).
Proof.
  intros M. destruct dc_table as [A [B C]]. destruct dc_built as [t E]. exists t. split; [exact E|].
  rewrite (C18_round_trip dc_counts dc_symbols 14 false t A B (fun _ => C) E ltac:(lia)
    ltac:(intros j Hj; change (length (lengths dc_counts)) with 12%nat in Hj; do 12 (destruct j as [|j]; [cbn; lia|]); lia)
    ltac:(discriminate) t JPEG (fun c => c) [-3; 1] [98; 128; 0; 0] 9 (repeat false 32)).
  - reflexivity.
  - left. reflexivity.
  - discriminate.
  - split; [repeat constructor; discriminate|]. intros _. split; [split; [discriminate|reflexivity]|discriminate].
  - vm_compute. reflexivity.
  - cbn; lia.
  - lia.
  - repeat (apply Forall_cons; [split; [lia|]; split; [apply Nat.ltb_lt; reflexivity|]; split; [reflexivity|left; apply Nat.leb_le; reflexivity]|]). apply Forall_nil.
Qed.
