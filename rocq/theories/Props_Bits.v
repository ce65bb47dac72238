(** Properties C01-C04 and C48: byte-order readers and bit readers. *)
From Coq Require Import ZArith List Bool.
From Verif Require Import Base Bytes Pumps Clients Spec_Bits Spec_Pump P_Base P_Bits P_Pumps.
Import ListNotations.
Local Open Scope Z_scope.

(** ** C01: multi-byte integers *)

(** A read that fits returns the positional value of the bytes at that offset. *)
Theorem C01_read_value : forall (e : endian) buf pos, bytes buf -> 0 <= pos ->
  (pos + 2 <= Z.of_nat (length buf) ->
     ru16 e buf pos =
     Ok ((if e then big_endian_value else little_endian_value) (firstn 2 (skipn (Z.to_nat pos) buf)))) /\
  (pos + 4 <= Z.of_nat (length buf) ->
     ru32 e buf pos =
     Ok ((if e then big_endian_value else little_endian_value) (firstn 4 (skipn (Z.to_nat pos) buf)))).
Proof. exact endian_read_value. Qed.
Print Assumptions C01_read_value.
Example C01_read_value_ex :
  bytes [18; 52; 86; 120] /\ ru16 BIG_ENDIAN [18; 52; 86; 120] 1 = Ok 13398
  /\ ru32 LITTLE_ENDIAN [18; 52; 86; 120] 0 = Ok 2018915346.
Proof. split; [repeat constructor; discriminate|split; reflexivity]. Qed.

(** A signed read returns the number congruent to the unsigned one modulo 2^32
    that lies in the range of a 32-bit signed integer. *)
Theorem C01_read_signed : forall (e : endian) buf pos v, ri32 e buf pos = Ok v ->
  - 2 ^ 31 <= v < 2 ^ 31 /\ exists u, ru32 e buf pos = Ok u /\ (v - u) mod 2 ^ 32 = 0.
Proof. exact endian_read_signed. Qed.
Print Assumptions C01_read_signed.
Example C01_read_signed_ex : ri32 BIG_ENDIAN [255; 255; 255; 254] 0 = Ok (-2).
Proof. reflexivity. Qed.

(** A read that does not fit never returns a value. *)
Theorem C01_read_outside : forall (e : endian) buf pos v,
  (ru16 e buf pos = Ok v -> 0 <= pos /\ pos + 2 <= Z.of_nat (length buf)) /\
  (ru32 e buf pos = Ok v -> 0 <= pos /\ pos + 4 <= Z.of_nat (length buf)) /\
  (ri32 e buf pos = Ok v -> 0 <= pos /\ pos + 4 <= Z.of_nat (length buf)).
Proof. exact endian_read_outside. Qed.
Print Assumptions C01_read_outside.
Example C01_read_outside_ex : ru32 BIG_ENDIAN [1; 2; 3; 4] 1 = Panic.
Proof. reflexivity. Qed.

(** ** C02: the word-at-a-time bit readers *)

(** The bit string each reader presents. *)
Theorem C02_lsb_reader : forall {M : Mode} buf rs, bytes buf -> Forall request_ok rs ->
  enough rs (bits_of_lsb (whole_words buf)) ->
  run_client LSB buf rs = Ok (answers number_lsb rs (bits_of_lsb (whole_words buf))).
Proof. exact (fun M buf rs => run_word_client LSB buf rs ltac:(discriminate)). Qed.
Print Assumptions C02_lsb_reader.
Theorem C02_msb_reader : forall {M : Mode} buf rs, bytes buf -> Forall request_ok rs ->
  enough rs (bits_of (whole_words buf)) ->
  run_client MSB buf rs = Ok (answers number rs (bits_of (whole_words buf))).
Proof. exact (fun M buf rs => run_word_client MSB buf rs ltac:(discriminate)). Qed.
Print Assumptions C02_msb_reader.
Theorem C02_msb32_reader : forall {M : Mode} buf rs, bytes buf -> Forall request_ok rs ->
  enough rs (bits_of (swapped 4 buf)) ->
  run_client MSB32 buf rs = Ok (answers number rs (bits_of (swapped 4 buf))).
Proof. exact (fun M buf rs => run_word_client MSB32 buf rs ltac:(discriminate)). Qed.
Print Assumptions C02_msb32_reader.
Example C02_reader_ex : let rs := [RPeek 5; RGet 3; RPeekDrop 9 2; RGet 27; RGet 0; RGet 32] in
  let buf := [1; 35; 69; 103; 137; 171; 205; 239] in
  bytes buf /\ Forall request_ok rs /\ enough rs (bits_of (whole_words buf)) /\
  run_client (M := true) MSB buf rs = Ok [0; 0; 18; 19088743; 0; 2309737967].
Proof.
  cbv zeta. split; [repeat constructor; discriminate|]. split; [repeat constructor|].
  split; [cbn; repeat split; repeat constructor|]. reflexivity.
Qed.

(** If any request lacks bits the whole run fails: no value is made up. *)
Theorem C02_exhausted_reader : forall {M : Mode} k buf rs vs, k <> JPEG -> bytes buf -> Forall request_ok rs ->
  run_client k buf rs = Ok vs ->
  enough rs (match k with
             | LSB => bits_of_lsb (whole_words buf)
             | MSB => bits_of (whole_words buf)
             | _ => bits_of (swapped 4 buf) end).
Proof. exact @word_client_enough. Qed.
Print Assumptions C02_exhausted_reader.
Example C02_exhausted_ex : run_client (M := true) LSB [1; 2; 3; 4; 5; 6] [RGet 32; RGet 1] = Panic.
Proof. reflexivity. Qed.

(** ** C03: the JPEG bit reader *)
Theorem C03_jpeg_reader : forall {M : Mode} buf rs n, bytes buf ->
  4 <= Z.of_nat (length buf) < 2 ^ 64 -> last buf 0 <> 255 -> Forall request_ok rs ->
  enough rs (bits_of (unstuff buf) ++ repeat false n) ->
  run_client JPEG buf rs = Ok (answers number rs (bits_of (unstuff buf) ++ repeat false n)).
Proof. exact @run_jpeg_client. Qed.
Print Assumptions C03_jpeg_reader.
Example C03_jpeg_reader_ex : let buf := [171; 255; 0; 205; 255; 217; 18; 52] in
  let rs := [RGet 12; RPeek 20; RGet 12; RGet 32] in
  bytes buf /\ last buf 0 <> 255 /\ Forall request_ok rs /\
  enough rs (bits_of (unstuff buf) ++ repeat false 64) /\ unstuff buf = [171; 255; 205] /\
  run_client (M := true) JPEG buf rs = Ok [2751; 1035520; 4045; 0].
Proof.
  cbv zeta. split; [repeat constructor; discriminate|]. split; [discriminate|].
  split; [repeat constructor|]. split; [cbn; repeat split; repeat constructor|]. split; reflexivity.
Qed.
(** The two excluded inputs make the reader panic: data shorter than four bytes
    (in debug builds) and data whose last byte is a lone FF. *)
Theorem C03_short_data_refuted : exists buf, bytes buf /\ last buf 0 <> 255 /\
  run_client (M := true) JPEG buf [RGet 1] = Panic.
Proof. exact jpeg_short_data. Qed.
Print Assumptions C03_short_data_refuted.
Theorem C03_trailing_ff_refuted : forall M : Mode, exists buf, bytes buf /\ 4 <= Z.of_nat (length buf) /\
  run_client (M := M) JPEG buf [RGet 32; RGet 8] = Panic.
Proof. exact jpeg_trailing_ff. Qed.
Print Assumptions C03_trailing_ff_refuted.

(** ** C04: signed fields *)
Theorem C04_signed_field : forall {M : Mode} k buf rs n, bytes buf -> Forall request_ok rs -> (n <= 32)%nat ->
  (k = MSB -> enough (rs ++ [RGet n]) (bits_of (whole_words buf)) ->
     run_client_signed k buf rs n = Ok (signed_value (firstn n (remaining rs (bits_of (whole_words buf)))))) /\
  (k = MSB32 -> enough (rs ++ [RGet n]) (bits_of (swapped 4 buf)) ->
     run_client_signed k buf rs n = Ok (signed_value (firstn n (remaining rs (bits_of (swapped 4 buf)))))) /\
  (k = JPEG -> 4 <= Z.of_nat (length buf) < 2 ^ 64 -> last buf 0 <> 255 ->
     run_client_signed k buf rs n = Ok (signed_value (firstn n (remaining rs
       (bits_of (unstuff buf) ++ repeat false (32 * S (length rs))))))).
Proof. exact @signed_client. Qed.
Print Assumptions C04_signed_field.
Example C04_signed_field_ex :
  run_client_signed (M := true) MSB [240; 15; 1; 2] [RGet 2] 6 = Ok (-16) /\
  signed_value (firstn 6 (remaining [RGet 2] (bits_of [240; 15; 1; 2]))) = -16.
Proof. split; reflexivity. Qed.

(** ** C48: zero padding *)
Theorem C48_padding_readable : forall {M : Mode} file rs, bytes file -> Forall request_ok rs ->
  enough rs (bits_of file ++ repeat false 64) ->
  run_client MSB (buffer_new file) rs = Ok (answers number rs (bits_of file ++ repeat false 64)).
Proof. exact @run_padded_client. Qed.
Print Assumptions C48_padding_readable.
Example C48_padding_ex : let file := [1; 2; 3; 4; 5] in let rs := [RGet 32; RGet 8] in
  bytes file /\ enough rs (bits_of file ++ repeat false 64) /\
  run_client (M := true) MSB (buffer_new file) rs = Ok [16909060; 5] /\
  run_client (M := true) MSB file rs = Panic.
Proof.
  cbv zeta. split; [repeat constructor; discriminate|].
  split; [cbn; repeat split; repeat constructor|]. split; reflexivity.
Qed.
