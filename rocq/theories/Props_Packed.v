(** Properties C05, C06, C07 (packed layouts) and C49. *)
From Coq Require Import ZArith List Bool Lia.
From Verif Require Import Base Bytes Threads Lookup Packed Spec_Bits Spec_Image Spec_Packed Spec_Curve
  P_Base P_Bits P_Threads P_Packed P_Packed2 P_Packed3 P_Packed4 P_Packed5 P_Lookup.
Import ListNotations.
Local Open Scope Z_scope.

(** ** C05: pixel (r, c) is the documented bit field of the file *)

(** 12 bits, most significant first. *)
Theorem C05_12be : forall buf w h, bytes buf -> 0 < w -> w mod 2 = 0 -> 0 <= h ->
  w * h * 12 <= 8 * Z.of_nat (length buf) ->
  exists img, decode_12be buf w h = Ok img /\ is_image img w h (fun r c => packed_sample 12 buf (r * w + c)).
Proof. exact decode_12be_image. Qed.
Print Assumptions C05_12be.
Example C05_12be_ex :
  bytes [18; 52; 86; 120; 154; 188] /\ decode_12be [18; 52; 86; 120; 154; 188] 2 2 = Ok [291; 1110; 1929; 2748].
Proof. split; [repeat constructor; discriminate|reflexivity]. Qed.

(** 12 bits, least significant first. *)
Theorem C05_12le : forall buf w h, bytes buf -> 0 < w -> w mod 2 = 0 -> 0 <= h ->
  w * h * 12 <= 8 * Z.of_nat (length buf) ->
  exists img, decode_12le buf w h = Ok img /\ is_image img w h (fun r c => packed_sample_lsb 12 buf (r * w + c)).
Proof. exact decode_12le_image. Qed.
Print Assumptions C05_12le.
Example C05_12le_ex :
  bytes [18; 52; 86; 120; 154; 188] /\ decode_12le [18; 52; 86; 120; 154; 188] 2 2 = Ok [1042; 1379; 2680; 3017].
Proof. split; [repeat constructor; discriminate|reflexivity]. Qed.

(** 12 bits, most significant first, rows starting on 16-bit boundaries. *)
Theorem C05_12be_rows_on_word_boundary : forall buf w h, bytes buf -> 0 < w -> w mod 2 = 0 -> 0 <= h ->
  let stride := 2 * ((w * 12 / 8 + 1) / 2) in
  h * stride <= Z.of_nat (length buf) ->
  exists img, decode_12le_16bitaligned buf w h = Ok img /\
    is_image img w h (fun r c => packed_sample 12 (skipn (Z.to_nat (r * stride)) buf) c).
Proof. exact decode_12le_16bitaligned_image. Qed.
Print Assumptions C05_12be_rows_on_word_boundary.
Example C05_12be_rows_on_word_boundary_ex :
  decode_12le_16bitaligned [18; 52; 86; 0; 120; 154; 188; 0] 2 2 = Ok [291; 1110; 1929; 2748].
Proof. reflexivity. Qed.

(** 12 bits in byte-swapped 16-bit words. *)
Theorem C05_12be_words16 : forall buf w h, bytes buf -> 0 < w -> 0 <= h -> (w * h) mod 4 = 0 ->
  w * h * 12 <= 8 * Z.of_nat (length buf) ->
  exists img, decode_12be_msb16 buf w h = Ok img /\
    is_image img w h (fun r c => packed_sample 12 (swapped 2 buf) (r * w + c)).
Proof. exact decode_12be_msb16_image. Qed.
Print Assumptions C05_12be_words16.
Example C05_12be_words16_ex : decode_12be_msb16 [52; 18; 120; 86; 188; 154] 2 2 = Ok [291; 1110; 1929; 2748].
Proof. reflexivity. Qed.

(** 12 bits in byte-swapped 32-bit words. *)
Theorem C05_12be_words32 : forall buf w h, bytes buf -> 0 < w -> 0 <= h -> (w * h) mod 8 = 0 ->
  w * h * 12 <= 8 * Z.of_nat (length buf) ->
  exists img, decode_12be_msb32 buf w h = Ok img /\
    is_image img w h (fun r c => packed_sample 12 (swapped 4 buf) (r * w + c)).
Proof. exact decode_12be_msb32_image. Qed.
Print Assumptions C05_12be_words32.
Example C05_12be_words32_ex :
  decode_12be_msb32 [120; 86; 52; 18; 18; 240; 188; 154; 154; 120; 86; 52] 4 2 =
  Ok [291; 1110; 1929; 2748; 3841; 564; 1383; 2202] /\ (4 * 2) mod 8 = 0.
Proof. split; vm_compute; reflexivity. Qed.

(** 10 bits in byte-swapped 16-bit words. *)
Theorem C05_10le_words16 : forall buf w h, bytes buf -> 0 < w -> w mod 8 = 0 -> 0 <= h ->
  w * h * 10 <= 8 * Z.of_nat (length buf) ->
  exists img, decode_10le_lsb16 buf w h = Ok img /\
    is_image img w h (fun r c => packed_sample 10 (swapped 2 buf) (r * w + c)).
Proof. exact decode_10le_lsb16_image. Qed.
Print Assumptions C05_10le_words16.
Example C05_10le_words16_ex :
  decode_10le_lsb16 [52; 18; 120; 86; 188; 154; 240; 222; 52; 18] 8 1 = Ok [72; 837; 414; 154; 755; 495; 4; 564].
Proof. vm_compute. reflexivity. Qed.

(** 12 bits, most significant first, every sixteenth byte of a row skipped. *)
Theorem C05_12be_control_bytes : forall buf w h, bytes buf -> 0 < w -> w mod 2 = 0 -> 0 <= h ->
  let perline := w * 12 / 8 + (w + 2) / 10 in
  h * perline <= Z.of_nat (length buf) ->
  exists img, decode_12be_wcontrol buf w h = Ok img /\
    is_image img w h (fun r c => packed_sample 12 (without_control (skipn (Z.to_nat (r * perline)) buf)) c).
Proof. exact decode_12be_wcontrol_image. Qed.
Print Assumptions C05_12be_control_bytes.
Example C05_12be_control_bytes_ex :
  decode_12be_wcontrol ([1; 2; 3; 4; 5; 6; 7; 8; 9; 10; 11; 12; 13; 14; 15] ++ [255] ++ [16; 17; 18; 0]) 12 1 =
  Ok [16; 515; 64; 1286; 112; 2057; 160; 2828; 208; 3599; 257; 274].
Proof. vm_compute. reflexivity. Qed.

(** 12 bits, least significant first, every sixteenth byte of a row skipped. *)
Theorem C05_12le_control_bytes : forall buf w h, bytes buf -> 0 < w -> w mod 2 = 0 -> 0 <= h ->
  let perline := w * 12 / 8 + (w + 2) / 10 in
  h * perline <= Z.of_nat (length buf) ->
  exists img, decode_12le_wcontrol buf w h = Ok img /\
    is_image img w h (fun r c => packed_sample_lsb 12 (without_control (skipn (Z.to_nat (r * perline)) buf)) c).
Proof. exact decode_12le_wcontrol_image. Qed.
Print Assumptions C05_12le_control_bytes.
Example C05_12le_control_bytes_ex :
  decode_12le_wcontrol ([1; 2; 3; 4; 5; 6; 7; 8; 9; 10; 11; 12; 13; 14; 15] ++ [255] ++ [16; 17; 18; 0]) 12 1 =
  Ok [513; 48; 1284; 96; 2055; 144; 2826; 192; 3597; 240; 272; 289].
Proof. vm_compute. reflexivity. Qed.

(** Two fields, the second one on a 2048-byte boundary. *)
Theorem C05_12be_interlaced : forall buf w h, bytes buf -> 0 < w -> w mod 2 = 0 -> 0 <= h ->
  let second := 2048 * ((h + 1) / 2 * w * 3 / 2 / 2048 + 1) in
  second + h / 2 * (w * 12 / 8) <= Z.of_nat (length buf) ->
  exists img, decode_12be_interlaced buf w h = Ok img /\
    is_image img w h (fun r c => packed_sample 12
      (if r mod 2 =? 0 then buf else skipn (Z.to_nat second) buf) (r / 2 * w + c)).
Proof. exact decode_12be_interlaced_image. Qed.
Print Assumptions C05_12be_interlaced.
Example C05_12be_interlaced_ex :
  decode_12be_interlaced ([18; 52; 86; 120; 154; 188] ++ repeat 0 2042 ++ [1; 2; 3]) 2 3 = Ok [291; 1110; 16; 515; 1929; 2748].
Proof. vm_compute. reflexivity. Qed.

(** Two fields, the second one right after the first. *)
Theorem C05_12be_interlaced_contiguous : forall buf w h, bytes buf -> 0 < w -> w mod 2 = 0 -> 0 <= h ->
  w * h * 12 <= 8 * Z.of_nat (length buf) ->
  exists img, decode_12be_interlaced_unaligned buf w h = Ok img /\
    is_image img w h (fun r c => packed_sample 12 buf
      (if r mod 2 =? 0 then r / 2 * w + c else ((h + 1) / 2 + r / 2) * w + c)).
Proof. exact decode_12be_interlaced_unaligned_image. Qed.
Print Assumptions C05_12be_interlaced_contiguous.
Example C05_12be_interlaced_contiguous_ex :
  decode_12be_interlaced_unaligned [18; 52; 86; 120; 154; 188; 1; 2; 3] 2 3 = Ok [291; 1110; 16; 515; 1929; 2748].
Proof. vm_compute. reflexivity. Qed.

(** 16-bit containers. *)
Theorem C05_12le_in_16 : forall buf w h, bytes buf -> 0 < w -> 0 <= h -> 2 * w * h <= Z.of_nat (length buf) ->
  exists img, decode_12le_unpacked buf w h = Ok img /\
    is_image img w h (fun r c => little_endian_value (firstn 2 (skipn (Z.to_nat (r * w * 2 + 2 * c)) buf)) mod 4096).
Proof. exact unpacked12le_image. Qed.
Print Assumptions C05_12le_in_16.
Example C05_12le_in_16_ex : decode_12le_unpacked [171; 205; 239; 18; 52; 86; 120; 154; 1; 2; 3; 4; 5; 6; 7; 8] 2 2 = Ok [3499; 751; 1588; 2680].
Proof. vm_compute. reflexivity. Qed.

Theorem C05_12be_in_16 : forall buf w h, bytes buf -> 0 < w -> 0 <= h -> 2 * w * h <= Z.of_nat (length buf) ->
  exists img, decode_12be_unpacked buf w h = Ok img /\
    is_image img w h (fun r c => big_endian_value (firstn 2 (skipn (Z.to_nat (r * w * 2 + 2 * c)) buf)) mod 4096).
Proof. exact unpacked12be_image. Qed.
Print Assumptions C05_12be_in_16.
Example C05_12be_in_16_ex : decode_12be_unpacked [171; 205; 239; 18; 52; 86; 120; 154; 1; 2; 3; 4; 5; 6; 7; 8] 2 2 = Ok [3021; 3858; 1110; 2202].
Proof. vm_compute. reflexivity. Qed.

Theorem C05_12be_left_in_16 : forall buf w h, bytes buf -> 0 < w -> 0 <= h -> 2 * w * h <= Z.of_nat (length buf) ->
  exists img, decode_12be_unpacked_left_aligned buf w h = Ok img /\
    is_image img w h (fun r c => big_endian_value (firstn 2 (skipn (Z.to_nat (r * w * 2 + 2 * c)) buf)) / 16).
Proof. exact unpacked12bel_image. Qed.
Print Assumptions C05_12be_left_in_16.
Example C05_12be_left_in_16_ex : decode_12be_unpacked_left_aligned [171; 205; 239; 18; 52; 86; 120; 154; 1; 2; 3; 4; 5; 6; 7; 8] 2 2 = Ok [2748; 3825; 837; 1929].
Proof. vm_compute. reflexivity. Qed.

Theorem C05_12le_left_in_16 : forall buf w h, bytes buf -> 0 < w -> 0 <= h -> 2 * w * h <= Z.of_nat (length buf) ->
  exists img, decode_12le_unpacked_left_aligned buf w h = Ok img /\
    is_image img w h (fun r c => little_endian_value (firstn 2 (skipn (Z.to_nat (r * w * 2 + 2 * c)) buf)) / 16).
Proof. exact unpacked12lel_image. Qed.
Print Assumptions C05_12le_left_in_16.
Example C05_12le_left_in_16_ex : decode_12le_unpacked_left_aligned [171; 205; 239; 18; 52; 86; 120; 154; 1; 2; 3; 4; 5; 6; 7; 8] 2 2 = Ok [3290; 302; 1379; 2471].
Proof. vm_compute. reflexivity. Qed.

Theorem C05_14le_in_16 : forall buf w h, bytes buf -> 0 < w -> 0 <= h -> 2 * w * h <= Z.of_nat (length buf) ->
  exists img, decode_14le_unpacked buf w h = Ok img /\
    is_image img w h (fun r c => little_endian_value (firstn 2 (skipn (Z.to_nat (r * w * 2 + 2 * c)) buf)) mod 16384).
Proof. exact unpacked14le_image. Qed.
Print Assumptions C05_14le_in_16.
Example C05_14le_in_16_ex : decode_14le_unpacked [171; 205; 239; 18; 52; 86; 120; 154; 1; 2; 3; 4; 5; 6; 7; 8] 2 2 = Ok [3499; 4847; 5684; 6776].
Proof. vm_compute. reflexivity. Qed.

Theorem C05_14be_in_16 : forall buf w h, bytes buf -> 0 < w -> 0 <= h -> 2 * w * h <= Z.of_nat (length buf) ->
  exists img, decode_14be_unpacked buf w h = Ok img /\
    is_image img w h (fun r c => big_endian_value (firstn 2 (skipn (Z.to_nat (r * w * 2 + 2 * c)) buf)) mod 16384).
Proof. exact unpacked14be_image. Qed.
Print Assumptions C05_14be_in_16.
Example C05_14be_in_16_ex : decode_14be_unpacked [171; 205; 239; 18; 52; 86; 120; 154; 1; 2; 3; 4; 5; 6; 7; 8] 2 2 = Ok [11213; 12050; 13398; 14490].
Proof. vm_compute. reflexivity. Qed.

Theorem C05_16le : forall buf w h, bytes buf -> 0 < w -> 0 <= h -> 2 * w * h <= Z.of_nat (length buf) ->
  exists img, decode_16le buf w h = Ok img /\
    is_image img w h (fun r c => little_endian_value (firstn 2 (skipn (Z.to_nat (r * w * 2 + 2 * c)) buf))).
Proof. exact unpacked16le_image. Qed.
Print Assumptions C05_16le.
Example C05_16le_ex : decode_16le [171; 205; 239; 18; 52; 86; 120; 154; 1; 2; 3; 4; 5; 6; 7; 8] 2 2 = Ok [52651; 4847; 22068; 39544].
Proof. vm_compute. reflexivity. Qed.

Theorem C05_16be : forall buf w h, bytes buf -> 0 < w -> 0 <= h -> 2 * w * h <= Z.of_nat (length buf) ->
  exists img, decode_16be buf w h = Ok img /\
    is_image img w h (fun r c => big_endian_value (firstn 2 (skipn (Z.to_nat (r * w * 2 + 2 * c)) buf))).
Proof. exact unpacked16be_image. Qed.
Print Assumptions C05_16be.
Example C05_16be_ex : decode_16be [171; 205; 239; 18; 52; 86; 120; 154; 1; 2; 3; 4; 5; 6; 7; 8] 2 2 = Ok [43981; 61202; 13398; 30874].
Proof. vm_compute. reflexivity. Qed.

Theorem C05_16le_every_other_row : forall buf w h, bytes buf -> 0 < w -> 0 <= h -> 4 * w * h <= Z.of_nat (length buf) ->
  exists img, decode_16le_skiplines buf w h = Ok img /\
    is_image img w h (fun r c => little_endian_value (firstn 2 (skipn (Z.to_nat (r * w * 4 + 2 * c)) buf))).
Proof. exact unpacked16les_image. Qed.
Print Assumptions C05_16le_every_other_row.
Example C05_16le_every_other_row_ex : decode_16le_skiplines [171; 205; 239; 18; 52; 86; 120; 154; 1; 2; 3; 4; 5; 6; 7; 8] 2 2 = Ok [52651; 4847; 513; 1027].
Proof. vm_compute. reflexivity. Qed.

(** 8 bits through a tone curve with dithering: each sample is within a quarter of
    the local span of the curve value of its byte. *)
Theorem C05_8bit_table : forall {M : Mode} curve buf w h, samples curve -> increasing curve -> not_too_steep curve ->
  Z.of_nat (length curve) = 256 -> bytes buf -> 0 < w -> 0 <= h ->
  w * h <= Z.of_nat (length buf) -> (h - 1) * w + 4 <= Z.of_nat (length buf) ->
  exists tbl img, lookup_new curve = Ok tbl /\ decode_8bit_wtable buf tbl w h = Ok img /\
    Z.of_nat (length img) = w * h /\
    forall r c, 0 <= r < h -> 0 <= c < w ->
      near curve (nth (Z.to_nat (r * w + c)) buf 0) (nth (Z.to_nat (r * w + c)) img 0).
Proof. exact (@decode_8bit_image). Qed.
Print Assumptions C05_8bit_table.
Example C05_8bit_table_ex :
  (tbl <- lookup_new (M := true) (map (fun k => 4 * Z.of_nat k) (seq 0 256)) ;;
   decode_8bit_wtable (M := true) [10; 200; 30; 40; 50; 60; 70; 80] tbl 2 2) = Ok [38; 800; 118; 160].
Proof. vm_compute. reflexivity. Qed.

(** The remaining layout, big-endian 10-bit samples, is decoded wrongly: the third
    sample of each group of four takes its low six bits from the wrong byte. *)
Theorem C05_10be_refuted : exists buf img, bytes buf /\ 4 * 1 * 10 <= 8 * Z.of_nat (length buf) /\
  decode_10le buf 4 1 = Ok img /\ nth 2 img 0 <> packed_sample 10 buf 2.
Proof. exact decode_10le_wrong. Qed.
Print Assumptions C05_10be_refuted.
(** The other three samples of each group are right. *)
Theorem C05_10be_partial : forall buf w h, bytes buf -> 0 < w -> w mod 4 = 0 -> 0 <= h ->
  w * h * 10 <= 8 * Z.of_nat (length buf) ->
  exists img, decode_10le buf w h = Ok img /\ Z.of_nat (length img) = w * h /\
    forall r c, 0 <= r < h -> 0 <= c < w -> c mod 4 <> 2 ->
      nth (Z.to_nat (r * w + c)) img 0 = packed_sample 10 buf (r * w + c).
Proof. exact decode_10le_partial. Qed.
Print Assumptions C05_10be_partial.
Example C05_10be_partial_ex : decode_10le [18; 52; 86; 120; 154] 4 1 = Ok [72; 837; 405; 154].
Proof. vm_compute. reflexivity. Qed.

(** ** C06: packing and decoding again returns the image *)

Theorem C06_12be : forall img w h, 0 < w -> w mod 2 = 0 -> 0 <= h -> Z.of_nat (length img) = w * h -> Forall (fits 12) img ->
  forall rest, bytes rest -> decode_12be (pack 12 img ++ rest) w h = Ok img.
Proof. exact round_trip_12be. Qed.
Print Assumptions C06_12be.
Example C06_12be_ex : decode_12be (pack 12 [291; 1110; 1929; 2748; 3840; 460; 1383; 2202] ++ [7]) 4 2 = Ok [291; 1110; 1929; 2748; 3840; 460; 1383; 2202].
Proof. vm_compute. reflexivity. Qed.

Theorem C06_12le : forall img w h, 0 < w -> w mod 2 = 0 -> 0 <= h -> Z.of_nat (length img) = w * h -> Forall (fits 12) img ->
  forall rest, bytes rest -> decode_12le (pack_lsb 12 img ++ rest) w h = Ok img.
Proof. exact round_trip_12le. Qed.
Print Assumptions C06_12le.
Example C06_12le_ex : decode_12le (pack_lsb 12 [291; 1110; 1929; 2748; 3840; 460; 1383; 2202] ++ [7]) 4 2 = Ok [291; 1110; 1929; 2748; 3840; 460; 1383; 2202].
Proof. vm_compute. reflexivity. Qed.

Theorem C06_12be_words16 : forall img w h, 0 < w -> 0 <= h -> (w * h) mod 4 = 0 -> Z.of_nat (length img) = w * h -> Forall (fits 12) img ->
  decode_12be_msb16 (swapped 2 (pack 12 img)) w h = Ok img.
Proof. exact round_trip_12be_msb16. Qed.
Print Assumptions C06_12be_words16.
Example C06_12be_words16_ex : decode_12be_msb16 (swapped 2 (pack 12 [291; 1110; 1929; 2748; 3840; 460; 1383; 2202])) 4 2 = Ok [291; 1110; 1929; 2748; 3840; 460; 1383; 2202].
Proof. vm_compute. reflexivity. Qed.

Theorem C06_12be_words32 : forall img w h, 0 < w -> 0 <= h -> (w * h) mod 8 = 0 -> Z.of_nat (length img) = w * h -> Forall (fits 12) img ->
  decode_12be_msb32 (swapped 4 (pack 12 img)) w h = Ok img.
Proof. exact round_trip_12be_msb32. Qed.
Print Assumptions C06_12be_words32.
Example C06_12be_words32_ex : decode_12be_msb32 (swapped 4 (pack 12 [291; 1110; 1929; 2748; 3840; 460; 1383; 2202])) 4 2 = Ok [291; 1110; 1929; 2748; 3840; 460; 1383; 2202].
Proof. vm_compute. reflexivity. Qed.

Theorem C06_10le_words16 : forall img w h, 0 < w -> 0 <= h -> w mod 8 = 0 -> Z.of_nat (length img) = w * h -> Forall (fits 10) img ->
  decode_10le_lsb16 (swapped 2 (pack 10 img)) w h = Ok img.
Proof. exact round_trip_10le_lsb16. Qed.
Print Assumptions C06_10le_words16.
Example C06_10le_words16_ex : decode_10le_lsb16 (swapped 2 (pack 10 [291; 110; 929; 748; 840; 46; 1023; 202])) 8 1 = Ok [291; 110; 929; 748; 840; 46; 1023; 202].
Proof. vm_compute. reflexivity. Qed.

(** Rows are given as a list of lists, filled up with any byte. *)
Theorem C06_12be_rows_on_word_boundary : forall rows w c, 0 < w -> w mod 2 = 0 -> byte c ->
  Forall (fun row => Z.of_nat (length row) = w) rows -> Forall (Forall (fits 12)) rows ->
  decode_12le_16bitaligned (pack_rows (2 * ((w * 12 / 8 + 1) / 2)) c (pack 12) rows) w (Z.of_nat (length rows)) =
  Ok (concat rows).
Proof. exact round_trip_12le_16bitaligned. Qed.
Print Assumptions C06_12be_rows_on_word_boundary.
Example C06_12be_rows_on_word_boundary_ex :
  decode_12le_16bitaligned (pack_rows 4 9 (pack 12) [[1; 4095]; [7; 8]; [256; 0]]) 2 3 = Ok [1; 4095; 7; 8; 256; 0].
Proof. vm_compute. reflexivity. Qed.

Theorem C06_12be_control_bytes : forall rows w c, 0 < w -> w mod 2 = 0 -> byte c ->
  Forall (fun row => Z.of_nat (length row) = w) rows -> Forall (Forall (fits 12)) rows ->
  decode_12be_wcontrol (pack_rows (w * 12 / 8 + (w + 2) / 10) c (fun row => with_control c (pack 12 row)) rows)
    w (Z.of_nat (length rows)) = Ok (concat rows).
Proof. exact round_trip_12be_wcontrol. Qed.
Print Assumptions C06_12be_control_bytes.
Example C06_12be_control_bytes_ex :
  decode_12be_wcontrol (pack_rows 19 9 (fun row => with_control 9 (pack 12 row)) [[1; 2; 3; 4; 5; 6; 7; 8; 9; 10; 11; 12]]) 12 1 =
  Ok [1; 2; 3; 4; 5; 6; 7; 8; 9; 10; 11; 12].
Proof. vm_compute. reflexivity. Qed.

Theorem C06_12le_control_bytes : forall rows w c, 0 < w -> w mod 2 = 0 -> byte c ->
  Forall (fun row => Z.of_nat (length row) = w) rows -> Forall (Forall (fits 12)) rows ->
  decode_12le_wcontrol (pack_rows (w * 12 / 8 + (w + 2) / 10) c (fun row => with_control c (pack_lsb 12 row)) rows)
    w (Z.of_nat (length rows)) = Ok (concat rows).
Proof. exact round_trip_12le_wcontrol. Qed.
Print Assumptions C06_12le_control_bytes.
Example C06_12le_control_bytes_ex :
  decode_12le_wcontrol (pack_rows 19 9 (fun row => with_control 9 (pack_lsb 12 row)) [[1; 2; 3; 4; 5; 6; 7; 8; 9; 10; 11; 12]]) 12 1 =
  Ok [1; 2; 3; 4; 5; 6; 7; 8; 9; 10; 11; 12].
Proof. vm_compute. reflexivity. Qed.

(** The two fields hold the even and the odd rows. *)
Theorem C06_12be_interlaced : forall evens odds w, 0 < w -> w mod 2 = 0 ->
  Forall (fun row => Z.of_nat (length row) = w) evens -> Forall (fun row => Z.of_nat (length row) = w) odds ->
  Forall (Forall (fits 12)) evens -> Forall (Forall (fits 12)) odds ->
  (length odds <= length evens <= S (length odds))%nat ->
  let h := Z.of_nat (length evens + length odds) in
  forall c rest, byte c -> bytes rest ->
  let second := 2048 * ((h + 1) / 2 * w * 3 / 2 / 2048 + 1) in
  decode_12be_interlaced (padded second c (pack 12 (concat evens)) ++ pack 12 (concat odds) ++ rest) w h =
  Ok (concat (weave evens odds)).
Proof. exact round_trip_interlaced. Qed.
Print Assumptions C06_12be_interlaced.
Example C06_12be_interlaced_ex :
  decode_12be_interlaced (padded 2048 0 (pack 12 [1; 2; 5; 6]) ++ pack 12 [3; 4] ++ []) 2 3 = Ok [1; 2; 3; 4; 5; 6].
Proof. vm_compute. reflexivity. Qed.

Theorem C06_12be_interlaced_contiguous : forall evens odds w, 0 < w -> w mod 2 = 0 ->
  Forall (fun row => Z.of_nat (length row) = w) evens -> Forall (fun row => Z.of_nat (length row) = w) odds ->
  Forall (Forall (fits 12)) evens -> Forall (Forall (fits 12)) odds ->
  (length odds <= length evens <= S (length odds))%nat ->
  let h := Z.of_nat (length evens + length odds) in
  forall rest, bytes rest ->
  decode_12be_interlaced_unaligned (pack 12 (concat evens ++ concat odds) ++ rest) w h =
  Ok (concat (weave evens odds)).
Proof. exact round_trip_interlaced_unaligned. Qed.
Print Assumptions C06_12be_interlaced_contiguous.
Example C06_12be_interlaced_contiguous_ex :
  decode_12be_interlaced_unaligned (pack 12 [1; 2; 5; 6; 3; 4]) 2 3 = Ok [1; 2; 3; 4; 5; 6].
Proof. vm_compute. reflexivity. Qed.

(** 16-bit containers. *)
Theorem C06_16le : forall img w h, 0 < w -> 0 <= h -> Z.of_nat (length img) = w * h -> Forall (fits 16) img ->
  forall rest, bytes rest -> decode_16le (pack16 false img ++ rest) w h = Ok img.
Proof. exact rt_16le. Qed.
Print Assumptions C06_16le.
Example C06_16le_ex : decode_16le (pack16 false (map (fun v => v) [1; 2000; 3; 4095]) ++ [1]) 2 2 = Ok [1; 2000; 3; 4095].
Proof. vm_compute. reflexivity. Qed.

Theorem C06_16be : forall img w h, 0 < w -> 0 <= h -> Z.of_nat (length img) = w * h -> Forall (fits 16) img ->
  forall rest, bytes rest -> decode_16be (pack16 true img ++ rest) w h = Ok img.
Proof. exact rt_16be. Qed.
Print Assumptions C06_16be.
Example C06_16be_ex : decode_16be (pack16 true (map (fun v => v) [1; 2000; 3; 4095]) ++ [1]) 2 2 = Ok [1; 2000; 3; 4095].
Proof. vm_compute. reflexivity. Qed.

Theorem C06_12le_in_16 : forall img w h, 0 < w -> 0 <= h -> Z.of_nat (length img) = w * h -> Forall (fits 12) img ->
  forall rest, bytes rest -> decode_12le_unpacked (pack16 false img ++ rest) w h = Ok img.
Proof. exact rt_12le_in_16. Qed.
Print Assumptions C06_12le_in_16.
Example C06_12le_in_16_ex : decode_12le_unpacked (pack16 false (map (fun v => v) [1; 2000; 3; 4095]) ++ [1]) 2 2 = Ok [1; 2000; 3; 4095].
Proof. vm_compute. reflexivity. Qed.

Theorem C06_12be_in_16 : forall img w h, 0 < w -> 0 <= h -> Z.of_nat (length img) = w * h -> Forall (fits 12) img ->
  forall rest, bytes rest -> decode_12be_unpacked (pack16 true img ++ rest) w h = Ok img.
Proof. exact rt_12be_in_16. Qed.
Print Assumptions C06_12be_in_16.
Example C06_12be_in_16_ex : decode_12be_unpacked (pack16 true (map (fun v => v) [1; 2000; 3; 4095]) ++ [1]) 2 2 = Ok [1; 2000; 3; 4095].
Proof. vm_compute. reflexivity. Qed.

Theorem C06_14le_in_16 : forall img w h, 0 < w -> 0 <= h -> Z.of_nat (length img) = w * h -> Forall (fits 14) img ->
  forall rest, bytes rest -> decode_14le_unpacked (pack16 false img ++ rest) w h = Ok img.
Proof. exact rt_14le_in_16. Qed.
Print Assumptions C06_14le_in_16.
Example C06_14le_in_16_ex : decode_14le_unpacked (pack16 false (map (fun v => v) [1; 2000; 3; 4095]) ++ [1]) 2 2 = Ok [1; 2000; 3; 4095].
Proof. vm_compute. reflexivity. Qed.

Theorem C06_14be_in_16 : forall img w h, 0 < w -> 0 <= h -> Z.of_nat (length img) = w * h -> Forall (fits 14) img ->
  forall rest, bytes rest -> decode_14be_unpacked (pack16 true img ++ rest) w h = Ok img.
Proof. exact rt_14be_in_16. Qed.
Print Assumptions C06_14be_in_16.
Example C06_14be_in_16_ex : decode_14be_unpacked (pack16 true (map (fun v => v) [1; 2000; 3; 4095]) ++ [1]) 2 2 = Ok [1; 2000; 3; 4095].
Proof. vm_compute. reflexivity. Qed.

Theorem C06_12le_left_in_16 : forall img w h, 0 < w -> 0 <= h -> Z.of_nat (length img) = w * h -> Forall (fits 12) img ->
  forall rest, bytes rest -> decode_12le_unpacked_left_aligned (pack16 false (map (fun v => 16 * v) img) ++ rest) w h = Ok img.
Proof. exact rt_12le_left_in_16. Qed.
Print Assumptions C06_12le_left_in_16.
Example C06_12le_left_in_16_ex : decode_12le_unpacked_left_aligned (pack16 false (map (fun v => 16 * v) [1; 2000; 3; 4095]) ++ [1]) 2 2 = Ok [1; 2000; 3; 4095].
Proof. vm_compute. reflexivity. Qed.

Theorem C06_12be_left_in_16 : forall img w h, 0 < w -> 0 <= h -> Z.of_nat (length img) = w * h -> Forall (fits 12) img ->
  forall rest, bytes rest -> decode_12be_unpacked_left_aligned (pack16 true (map (fun v => 16 * v) img) ++ rest) w h = Ok img.
Proof. exact rt_12be_left_in_16. Qed.
Print Assumptions C06_12be_left_in_16.
Example C06_12be_left_in_16_ex : decode_12be_unpacked_left_aligned (pack16 true (map (fun v => 16 * v) [1; 2000; 3; 4095]) ++ [1]) 2 2 = Ok [1; 2000; 3; 4095].
Proof. vm_compute. reflexivity. Qed.

(** ** C07: the size of the result and the range of the samples, whatever the input *)

Theorem C07_packed_layouts : 
  shape_ok 10 decode_10le_lsb16 /\
  shape_ok 10 decode_10le /\
  shape_ok 12 decode_12be /\
  shape_ok 12 decode_12le /\
  shape_ok 12 decode_12be_msb16 /\
  shape_ok 12 decode_12be_msb32 /\
  shape_ok 12 decode_12le_16bitaligned /\
  shape_ok 12 decode_12le_wcontrol /\
  shape_ok 12 decode_12be_wcontrol /\
  shape_ok 12 decode_12be_interlaced /\
  shape_ok 12 decode_12be_interlaced_unaligned /\
  shape_ok 12 decode_12le_unpacked /\
  shape_ok 12 decode_12be_unpacked /\
  shape_ok 12 decode_12be_unpacked_left_aligned /\
  shape_ok 12 decode_12le_unpacked_left_aligned /\
  shape_ok 14 decode_14le_unpacked /\
  shape_ok 14 decode_14be_unpacked /\
  shape_ok 16 decode_16le /\
  shape_ok 16 decode_16be /\
  shape_ok 16 decode_16le_skiplines.
Proof. exact packed_shapes. Qed.
Print Assumptions C07_packed_layouts.
Example C07_packed_layouts_ex : exists img, decode_12be [1; 2; 3; 4; 5; 6; 7; 8; 9; 10] 2 3 = Ok img /\ length img = 6%nat.
Proof. eexists. split; vm_compute; reflexivity. Qed.

Theorem C07_8bit_table : forall {M : Mode} tbl buf w h img, 0 <= w -> 0 <= h -> decode_8bit_wtable buf tbl w h = Ok img ->
  Z.of_nat (length img) = w * h /\ samples img.
Proof. exact (@decode_8bit_shape). Qed.
Print Assumptions C07_8bit_table.
Example C07_8bit_table_ex : decode_8bit_wtable (M := true) [0; 1; 1; 0] [(0, 0, 2); (3, 2, 4)] 2 1 = Ok [0; 3].
Proof. vm_compute. reflexivity. Qed.

(** ** C49: missing data is not silently replaced *)

(** The row-wise layouts fail when more than the last row is missing. *)

Theorem C49_12be_partial : forall buf w h img, 0 < w -> 0 < h -> decode_12be buf w h = Ok img ->
  (h - 1) * w * 12 / 8 <= Z.of_nat (length buf).
Proof. exact decode_12be_needs. Qed.
Print Assumptions C49_12be_partial.
Example C49_12be_partial_ex : decode_12be [1; 2] 2 2 = Panic.
Proof. vm_compute. reflexivity. Qed.

(** The last row may be missing altogether and comes out black. *)
Theorem C49_last_row_refuted : exists buf w h img, bytes buf /\ Z.of_nat (length buf) * 8 < w * h * 12 /\
  decode_12be buf w h = Ok img.
Proof. exact decode_12be_truncated. Qed.
Print Assumptions C49_last_row_refuted.
(** The sequential layouts accept an empty buffer for any size. *)
Theorem C49_words_refuted : forall w h, 0 < w -> 0 < h ->
  decode_12be_msb16 [] w h = Ok (zeros (w * h)) /\ decode_12be_msb32 [] w h = Ok (zeros (w * h)).
Proof. exact decode_msb_truncated. Qed.
Print Assumptions C49_words_refuted.
