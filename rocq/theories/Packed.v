(** Model of src/decoders/packed.rs. *)
From Coq Require Import ZArith List Bool.
From Verif Require Import Base Bytes Threads Lookup.
Import ListNotations.
Local Open Scope Z_scope.

(** [for (o, i) in out.chunks_mut(no).zip(inb.chunks(ni)) { body }]: stops with
    the shorter of the two; what is left of [out] keeps its value. *)
Fixpoint zip_chunks_aux (fuel : nat) (no ni : nat) (body : list Z -> list Z -> res (list Z))
    (out inb : list Z) : res (list Z) :=
  match fuel with
  | O => Ok out
  | S fuel' =>
      match out, inb with
      | [], _ => Ok out
      | _, [] => Ok out
      | _, _ =>
          o <- body (firstn no out) (firstn ni inb) ;;
          r <- zip_chunks_aux fuel' no ni body (skipn no out) (skipn ni inb) ;;
          Ok (o ++ r)
      end
  end.
Definition zip_chunks (no ni : nat) (body : list Z -> list Z -> res (list Z))
    (out inb : list Z) : res (list Z) :=
  zip_chunks_aux (length out) no ni body out inb.

(** [o[0] = v0; o[1] = v1; ...] *)
Fixpoint store (o : list Z) (i : Z) (vs : list Z) : res (list Z) :=
  match vs with
  | [] => Ok o
  | v :: t => o' <- upd o i v ;; store o' (i + 1) t
  end.

Infix "<<<" := Z.shiftl (at level 35).
Infix ">>>" := Z.shiftr (at level 35).
Infix "|||" := Z.lor (at level 50, left associativity).
Infix "&&&" := Z.land (at level 40, left associativity).

Section Packed.
Context {M : Mode}.

(** packed.rs:3-12 [decode_8bit_wtable].  The inner loop zips 1-chunks of out
    and inb and carries the random state. *)
Fixpoint dither_line (tbl : ltable) (out inb : list Z) (random : Z) : res (list Z) :=
  match out, inb with
  | o :: out', i :: inb' =>
      '(p, random') <- dither tbl i random ;;
      r <- dither_line tbl out' inb' random' ;;
      Ok (p :: r)
  | _, _ => Ok out
  end.
Definition decode_8bit_wtable (buf : list Z) (tbl : ltable) (width height : Z) : res (list Z) :=
  decode_threaded width height (fun out row =>
    inb <- slice_from buf (row * width) ;;
    random <- LEu32 inb 0 ;;
    dither_line tbl out inb random).

(** packed.rs:18-38 loop body of [decode_10le_lsb16] *)
Definition body_10le_lsb16 (o i : list Z) : res (list Z) :=
  g1 <- get i 0 ;; g2 <- get i 1 ;; g3 <- get i 2 ;; g4 <- get i 3 ;; g5 <- get i 4 ;;
  g6 <- get i 5 ;; g7 <- get i 6 ;; g8 <- get i 7 ;; g9 <- get i 8 ;; g10 <- get i 9 ;;
  store o 0
    [ (g2 <<< 2) ||| (g1 >>> 6);
      ((g1 &&& 0x3f) <<< 4) ||| (g4 >>> 4);
      ((g4 &&& 0x0f) <<< 6) ||| (g3 >>> 2);
      ((g3 &&& 0x03) <<< 8) ||| g6;
      (g5 <<< 2) ||| (g8 >>> 6);
      ((g8 &&& 0x3f) <<< 4) ||| (g7 >>> 4);
      ((g7 &&& 0x0f) <<< 6) ||| (g10 >>> 2);
      ((g10 &&& 0x03) <<< 8) ||| g9 ].
(** packed.rs:14-40 *)
Definition decode_10le_lsb16 (buf : list Z) (width height : Z) : res (list Z) :=
  decode_threaded width height (fun out row =>
    inb <- slice_from buf (row * width * 10 / 8) ;;
    zip_chunks 8 10 body_10le_lsb16 out inb).

(** packed.rs:46-57 loop body of [decode_10le], with the source's [g3 >> 2] in
    the third sample. *)
Definition body_10le (o i : list Z) : res (list Z) :=
  g1 <- get i 0 ;; g2 <- get i 1 ;; g3 <- get i 2 ;; g4 <- get i 3 ;; g5 <- get i 4 ;;
  store o 0
    [ (g1 <<< 2) ||| (g2 >>> 6);
      ((g2 &&& 0x3f) <<< 4) ||| (g3 >>> 4);
      ((g3 &&& 0x0f) <<< 6) ||| (g3 >>> 2);
      ((g4 &&& 0x03) <<< 8) ||| g5 ].
(** packed.rs:42-59 *)
Definition decode_10le (buf : list Z) (width height : Z) : res (list Z) :=
  decode_threaded width height (fun out row =>
    inb <- slice_from buf (row * width * 10 / 8) ;;
    zip_chunks 4 5 body_10le out inb).

(** packed.rs:66-71, also 101-106, 170-175, 193-198, 212-217: two big-endian
    12-bit samples in three bytes. *)
Definition body_12be (o i : list Z) : res (list Z) :=
  g1 <- get i 0 ;; g2 <- get i 1 ;; g3 <- get i 2 ;;
  store o 0 [ (g1 <<< 4) ||| (g2 >>> 4); ((g2 &&& 0x0f) <<< 8) ||| g3 ].
(** packed.rs:150-155, 227-232: two little-endian 12-bit samples. *)
Definition body_12le (o i : list Z) : res (list Z) :=
  g1 <- get i 0 ;; g2 <- get i 1 ;; g3 <- get i 2 ;;
  store o 0 [ ((g2 &&& 0x0f) <<< 8) ||| g1; (g3 <<< 4) ||| (g2 >>> 4) ].

(** packed.rs:61-74 *)
Definition decode_12be (buf : list Z) (width height : Z) : res (list Z) :=
  decode_threaded width height (fun out row =>
    inb <- slice_from buf (row * width * 12 / 8) ;;
    zip_chunks 2 3 body_12be out inb).

(** packed.rs:79-91 loop body *)
Definition body_12be_msb16 (o i : list Z) : res (list Z) :=
  g1 <- get i 0 ;; g2 <- get i 1 ;; g3 <- get i 2 ;;
  g4 <- get i 3 ;; g5 <- get i 4 ;; g6 <- get i 5 ;;
  store o 0
    [ (g2 <<< 4) ||| (g1 >>> 4); ((g1 &&& 0x0f) <<< 8) ||| g4;
      (g3 <<< 4) ||| (g6 >>> 4); ((g6 &&& 0x0f) <<< 8) ||| g5 ].
(** packed.rs:76-94 (sequential) *)
Definition decode_12be_msb16 (buf : list Z) (width height : Z) : res (list Z) :=
  zip_chunks 4 6 body_12be_msb16 (zeros (width * height)) buf.

(** packed.rs:96-109 *)
Definition decode_12le_16bitaligned (buf : list Z) (width height : Z) : res (list Z) :=
  let stride := ((width * 12 / 8 + 1) >>> 1) <<< 1 in
  decode_threaded width height (fun out row =>
    inb <- slice_from buf (row * stride) ;;
    zip_chunks 2 3 body_12be out inb).

(** packed.rs:114-136 loop body *)
Definition body_12be_msb32 (o i : list Z) : res (list Z) :=
  g1 <- get i 0 ;; g2 <- get i 1 ;; g3 <- get i 2 ;; g4 <- get i 3 ;;
  g5 <- get i 4 ;; g6 <- get i 5 ;; g7 <- get i 6 ;; g8 <- get i 7 ;;
  g9 <- get i 8 ;; g10 <- get i 9 ;; g11 <- get i 10 ;; g12 <- get i 11 ;;
  store o 0
    [ (g4 <<< 4) ||| (g3 >>> 4);   ((g3 &&& 0x0f) <<< 8) ||| g2;
      (g1 <<< 4) ||| (g8 >>> 4);   ((g8 &&& 0x0f) <<< 8) ||| g7;
      (g6 <<< 4) ||| (g5 >>> 4);   ((g5 &&& 0x0f) <<< 8) ||| g12;
      (g11 <<< 4) ||| (g10 >>> 4); ((g10 &&& 0x0f) <<< 8) ||| g9 ].
(** packed.rs:111-139 (sequential) *)
Definition decode_12be_msb32 (buf : list Z) (width height : Z) : res (list Z) :=
  zip_chunks 8 12 body_12be_msb32 (zeros (width * height)) buf.

(** packed.rs:141-159 *)
Definition decode_12le_wcontrol (buf : list Z) (width height : Z) : res (list Z) :=
  let perline := width * 12 / 8 + (width + 2) / 10 in
  decode_threaded width height (fun out row =>
    inb <- slice_from buf (row * perline) ;;
    zip_chunks 10 16 (fun oc ic => zip_chunks 2 3 body_12le oc ic) out inb).

(** packed.rs:161-179 *)
Definition decode_12be_wcontrol (buf : list Z) (width height : Z) : res (list Z) :=
  let perline := width * 12 / 8 + (width + 2) / 10 in
  decode_threaded width height (fun out row =>
    inb <- slice_from buf (row * perline) ;;
    zip_chunks 10 16 (fun oc ic => zip_chunks 2 3 body_12be oc ic) out inb).

(** packed.rs:188-200 / 207-219: the row loop shared by the two interlaced forms *)
Definition interlaced_rows (buf second_field : list Z) (width height : Z) : res (list Z) :=
  decode_threaded width height (fun out row =>
    let off := row / 2 * width * 12 / 8 in
    inb <- (if row mod 2 =? 0 then slice_from buf off else slice_from second_field off) ;;
    zip_chunks 2 3 body_12be out inb).
(** packed.rs:182-201 *)
Definition decode_12be_interlaced (buf : list Z) (width height : Z) : res (list Z) :=
  let half := (height + 1) >>> 1 in
  let second_field_offset := (((half * width * 3 / 2) >>> 11) + 1) <<< 11 in
  second_field <- slice_from buf second_field_offset ;;
  interlaced_rows buf second_field width height.
(** packed.rs:203-220 *)
Definition decode_12be_interlaced_unaligned (buf : list Z) (width height : Z) : res (list Z) :=
  let half := (height + 1) >>> 1 in
  second_field <- slice_from buf (half * width * 12 / 8) ;;
  interlaced_rows buf second_field width height.

(** packed.rs:222-235 *)
Definition decode_12le (buf : list Z) (width height : Z) : res (list Z) :=
  decode_threaded width height (fun out row =>
    inb <- slice_from buf (row * width * 12 / 8) ;;
    zip_chunks 2 3 body_12le out inb).

(** The seven functions below share their loop:
    [for (i, bytes) in (0..width).zip(inb.chunks(2)) { out[i] = f(bytes) }]. *)
Definition unpacked_line (width : Z) (rd : list Z -> res Z) (out inb : list Z) : res (list Z) :=
  rfold (fun '(i, bytes) o => v <- rd bytes ;; upd o i v)
        (combine (zrange 0 width) (chunks 2 inb)) out.
Definition unpacked (skip : Z) (rd : list Z -> res Z) (buf : list Z) (width height : Z) : res (list Z) :=
  decode_threaded width height (fun out row =>
    inb <- slice_from buf (row * width * skip) ;;
    unpacked_line width rd out inb).
(** packed.rs:237-245 *)
Definition decode_12le_unpacked := unpacked 2 (fun b => v <- LEu16 b 0 ;; Ok (v &&& 0x0fff)).
(** packed.rs:247-255 *)
Definition decode_12be_unpacked := unpacked 2 (fun b => v <- BEu16 b 0 ;; Ok (v &&& 0x0fff)).
(** packed.rs:257-265 *)
Definition decode_12be_unpacked_left_aligned := unpacked 2 (fun b => v <- BEu16 b 0 ;; Ok (v >>> 4)).
(** packed.rs:267-275 *)
Definition decode_12le_unpacked_left_aligned := unpacked 2 (fun b => v <- LEu16 b 0 ;; Ok (v >>> 4)).
(** packed.rs:277-285 *)
Definition decode_14le_unpacked := unpacked 2 (fun b => v <- LEu16 b 0 ;; Ok (v &&& 0x3fff)).
(** packed.rs:287-295 *)
Definition decode_14be_unpacked := unpacked 2 (fun b => v <- BEu16 b 0 ;; Ok (v &&& 0x3fff)).
(** packed.rs:297-305 *)
Definition decode_16le := unpacked 2 (fun b => LEu16 b 0).
(** packed.rs:307-315 *)
Definition decode_16le_skiplines := unpacked 4 (fun b => LEu16 b 0).
(** packed.rs:317-325 *)
Definition decode_16be := unpacked 2 (fun b => BEu16 b 0).
End Packed.
