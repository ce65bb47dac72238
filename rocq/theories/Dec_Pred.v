(** Models of the decoders of compressed formats that predict a pixel from the
    ones before it: src/decoders/{iiq,pef,orf,rw2,arw}.rs.  The data part of
    arw.rs is in Arw.v. *)
From Coq Require Import String ZArith List Bool.
From Verif Require Import Base Num F32 Bytes Pumps Huffman Threads Lookup Packed Ljpeg Tiff Image Camera Arw Decoder.
Import ListNotations.
Local Open Scope Z_scope.

Section Pred.
Context {M : Mode}.

(** ** Phase One *)
(** iiq.rs:70 *)
Definition iiq_lens : list Z := [8; 7; 6; 9; 11; 10; 5; 12; 14; 13].
(** iiq.rs:84: up to [n] zero bits, counted from [j] *)
Fixpoint iiq_zeros (n : nat) (j : Z) (p : pump) : res (Z * pump) :=
  match n with
  | O => Ok (j, p)
  | S n => '(b, p) <- get_bits MSB32 p 1 ;; if b =? 0 then iiq_zeros n (j + 1) p else Ok (j, p)
  end.
(** iiq.rs:83-87: the new length of one parity, given the old one *)
Definition iiq_len (len : Z) (p : pump) : res (Z * pump) :=
  '(j, p) <- iiq_zeros 5 0 p ;;
  if 0 <? j then
    '(b, p) <- get_bits MSB32 p 1 ;; l <- get iiq_lens ((j - 1) * 2 + b) ;; Ok (l, p)
  else Ok (len, p).
(** iiq.rs:91-95: the next value of one parity *)
Definition iiq_pred (i pred : Z) (p : pump) : res (Z * pump) :=
  if i =? 14 then get_bits MSB32 p 16
  else
    '(b, p) <- get_bits MSB32 p i ;;
    a <- u32add pred b ;; a <- u32add a 1 ;;
    s <- u32sub i 1 ;; o <- shl_u 32 1 s ;; v <- u32sub a o ;; Ok (v, p).
(** iiq.rs:78-96: one pixel.  State: (reader, pred, len) of both parities *)
Definition iiq_pixel (width col : Z) (st : pump * (Z * Z) * (Z * Z)) : res (Z * (pump * (Z * Z) * (Z * Z))) :=
  let '(p, (p0, p1), (l0, l1)) := st in
  '(p, l0, l1) <-
    (if width &&& 0xfffffff8 <=? col then Ok (p, 14, 14)
     else if col &&& 7 =? 0 then '(l0, p) <- iiq_len l0 p ;; '(l1, p) <- iiq_len l1 p ;; Ok (p, l0, l1)
     else Ok (p, l0, l1)) ;;
  if col &&& 1 =? 0 then '(v, p) <- iiq_pred l0 p0 p ;; Ok (as_u16 v, (p, (v, p1), (l0, l1)))
  else '(v, p) <- iiq_pred l1 p1 p ;; Ok (as_u16 v, (p, (p0, v), (l0, l1))).
(** iiq.rs:77-97: the [n] pixels from column [col] on *)
Fixpoint iiq_line (n : nat) (width col : Z) (st : pump * (Z * Z) * (Z * Z)) : res (list Z) :=
  match n with
  | O => Ok []
  | S n => '(v, st) <- iiq_pixel width col st ;; r <- iiq_line n width (col + 1) st ;; Ok (v :: r)
  end.
(** iiq.rs:69-99 [decode_compressed] *)
Definition iiq_decompress (buf : list Z) (data_offset strip_offset width height : Z) : res (list Z) :=
  decode_threaded width height (fun out row =>
    o <- LEu32 buf (strip_offset + row * 4) ;;
    src <- slice_from buf (data_offset + o) ;;
    iiq_line (length out) width 0 (pump_new src, (0, 0), (0, 0))).
(** iiq.rs:27-50: what the header says *)
Record iiq_info := mkiiq { q_wb : Z; q_width : Z; q_height : Z; q_data : Z; q_strip : Z; q_black : Z }.
Definition iiq_entry (tag data : Z) (q : iiq_info) : iiq_info :=
  if tag =? 0x107 then mkiiq (data + 8) (q_width q) (q_height q) (q_data q) (q_strip q) (q_black q)
  else if tag =? 0x108 then mkiiq (q_wb q) data (q_height q) (q_data q) (q_strip q) (q_black q)
  else if tag =? 0x109 then mkiiq (q_wb q) (q_width q) data (q_data q) (q_strip q) (q_black q)
  else if tag =? 0x10f then mkiiq (q_wb q) (q_width q) (q_height q) (data + 8) (q_strip q) (q_black q)
  else if tag =? 0x21c then mkiiq (q_wb q) (q_width q) (q_height q) (q_data q) (data + 8) (q_black q)
  else if tag =? 0x21d then mkiiq (q_wb q) (q_width q) (q_height q) (q_data q) (q_strip q) (as_u16 (data >>> 2))
  else q.
Definition iiq_header (buf : list Z) : res iiq_info :=
  o <- LEu32 buf 16 ;; let off := o + 8 in
  entries <- LEu32 buf off ;;
  rfold (fun i q =>
    let pos := 8 + i * 16 in
    tag <- LEu32 buf (off + pos) ;; data <- LEu32 buf (off + pos + 12) ;;
    Ok (iiq_entry tag data q)) (zrange 0 entries) (mkiiq 0 0 0 0 0 0).
(** iiq.rs:24-59 [image], 63-67 [get_wb] *)
Definition iiq_image (l : loader) (buf : list Z) (tiff : ifd) : res (rawimage f32) :=
  camera <- check_supported l tiff ;;
  q <- iiq_header buf ;;
  if (q_width q <=? 0) || (q_height q <=? 0) then Err "IIQ: couldn't find width and height"
  else
    image <- iiq_decompress buf (q_data q) (q_strip q) (q_width q) (q_height q) ;;
    r <- LEf32 buf (q_wb q) ;; g <- LEf32 buf (q_wb q + 4) ;; b <- LEf32 buf (q_wb q + 8) ;;
    ok_image_with_blacklevels camera (q_width q) (q_height q) (V4 r g b NAN) (all4 (q_black q)) image.

(** ** Pentax *)
(** pef.rs:104-105 *)
Definition pentax_tree : list Z :=
  [0; 2; 3; 1; 1; 1; 1; 1; 1; 2; 0; 0; 0; 0; 0; 0;
   3; 4; 2; 5; 1; 6; 0; 7; 8; 9; 10; 11; 12].
(** pef.rs:106-116, nef.rs [create_hufftable]: sixteen counts and the values.
    [HuffTable::empty] with the two arrays filled in and initialised is
    [HuffTable::new]. *)
Definition tree_table (tree : list Z) (precision : Z) : res hufftable :=
  counts <- slice tree 0 16 ;;
  let acc := fold_right Z.add 0 counts in
  vals <- slice tree 16 (16 + acc) ;;
  huff_new (0 :: counts) (vals ++ zeros (256 - acc)) precision false.
(** pef.rs:84-87: code [c] without its trailing zeros and the number of codes
    of its length *)
Definition pef_code (v0 v1 : list Z) (c : Z) (st : list Z * list Z) : res (list Z * list Z) :=
  let '(v2, bits) := st in
  a <- get v0 c ;; n <- get v1 c ;;
  s <- u32sub 12 n ;; v <- shr_u 32 a s ;;
  v2 <- upd v2 c v ;;
  b <- get bits n ;; b <- u32add b 1 ;; bits <- upd bits n b ;;
  Ok (v2, bits).
(** pef.rs:91-100: the last of the smallest codes left is number [i] *)
Definition pef_smallest (depth i : Z) (st : list Z * list Z) : res (list Z * list Z) :=
  let '(v2, vals) := st in
  '(_, sm_num) <- rfold (fun j '(sm_val, sm_num) =>
      v <- get v2 j ;; Ok (if v <=? sm_val then (v, j) else (sm_val, sm_num)))
    (zrange 0 depth) (0xfffffff, 0xff) ;;
  vals <- upd vals i sm_num ;;
  v2 <- upd v2 sm_num 0xffffffff ;;
  Ok (v2, vals).
(** pef.rs:66-101: the table of the makernote *)
Definition pef_table (data : list Z) (e : endian) : res hufftable :=
  '(d, s) <- bs_get_u16 (bs_new data e) ;;
  let depth := (d + 12) &&& 15 in
  let s := bs_consume s 12 in
  '(v0, s) <- rfold (fun i '(v, s) => '(x, s) <- bs_get_u16 s ;; v <- upd v i x ;; Ok (v, s)) (zrange 0 depth) (zeros 16, s) ;;
  '(v1, s) <- rfold (fun i '(v, s) => '(x, s) <- bs_get_u8 s ;; v <- upd v i x ;; Ok (v, s)) (zrange 0 depth) (zeros 16, s) ;;
  '(v2, bits) <- rfold (pef_code v0 v1) (zrange 0 depth) (zeros 16, zeros 17) ;;
  '(_, vals) <- rfold (pef_smallest depth) (zrange 0 depth) (v2, zeros 256) ;;
  huff_new bits vals 16 false.
(** pef.rs:126-127, 133-134: two differences *)
Definition pair_diff (t : hufftable) (a b : Z) (p : pump) : res (Z * Z * pump) :=
  '(d, p) <- huff_decode MSB t p ;; a <- i32add a d ;;
  '(d, p) <- huff_decode MSB t p ;; b <- i32add b d ;;
  Ok (a, b, p).
Definition put_pair (out : list Z) (at_ a b : Z) : res (list Z) :=
  out <- upd out at_ (as_u16 a) ;; upd out (at_ + 1) (as_u16 b).
(** pef.rs:118-139 *)
Definition pef_rows (t : hufftable) (src : list Z) (width height : Z) : res (list Z) :=
  '(_, _, _, out) <- rfold (fun row '(up1, up2, p, out) =>
      u1 <- get up1 (row &&& 1) ;; u2 <- get up2 (row &&& 1) ;;
      '(u1, u2, p) <- pair_diff t u1 u2 p ;;
      up1 <- upd up1 (row &&& 1) u1 ;; up2 <- upd up2 (row &&& 1) u2 ;;
      out <- put_pair out (row * width) u1 u2 ;;
      '(_, _, p, out) <- rfold (fun col '(a, b, p, out) =>
          '(a, b, p) <- pair_diff t a b p ;;
          out <- put_pair out (row * width + col) a b ;;
          Ok (a, b, p, out)) (zrange_step 2 width 2) (u1, u2, p, out) ;;
      Ok (up1, up2, p, out))
    (zrange 0 height) ([0; 0], [0; 0], pump_new src, zeros (width * height)) ;;
  Ok out.
(** pef.rs:62-140 [decode_compressed] *)
Definition pef_decompress (tiff : ifd) (src : list Z) (width height : Z) : res (list Z) :=
  t <- (match find_entry tiff T_PefHuffman with
        | Some huff => pef_table (e_data huff) (i_endian tiff)
        | None => tree_table pentax_tree 16
        end) ;;
  pef_rows t src width height.
(** pef.rs:52-60 [get_blacklevels] *)
Definition pef_blacks (tiff : ifd) (default : vec4 Z) : res (vec4 Z) :=
  match find_entry tiff T_PefBlackLevels with
  | Some levels =>
      a <- get_f32 levels 0 ;; b <- get_f32 levels 1 ;; c <- get_f32 levels 2 ;; d <- get_f32 levels 3 ;;
      Ok (V4 (f32_to 0 65535 a) (f32_to 0 65535 b) (f32_to 0 65535 c) (f32_to 0 65535 d))
  | None => Ok default
  end.
(** pef.rs:26-43 [image], 47-50 [get_wb] *)
Definition pef_image (l : loader) (buf : list Z) (tiff : ifd) : res (rawimage f32) :=
  camera <- check_supported l tiff ;;
  raw <- fetch_ifd tiff T_StripOffsets ;;
  width <- tag_usize raw T_ImageWidth ;;
  height <- tag_usize raw T_ImageLength ;;
  offset <- tag_usize raw T_StripOffsets ;;
  src <- slice_from buf offset ;;
  compression <- tag_usize raw T_Compression ;;
  image <- (if compression =? 1 then decode_16be src width height
            else if compression =? 32773 then decode_12be src width height
            else if compression =? 65535 then pef_decompress tiff src width height
            else Err "PEF: Don't know how to read compression") ;;
  blacks <- pef_blacks tiff (c_blacks camera) ;;
  levels <- fetch_tag tiff T_PefWB ;;
  r <- get_f32 levels 0 ;; g <- get_f32 levels 1 ;; b <- get_f32 levels 3 ;;
  ok_image_with_blacklevels camera width height (V4 r g b NAN) blacks image.

(** ** Olympus *)
(** orf.rs:73-80: entry [i] of [bittable], the number of zeros in front of the
    first one of twelve bits *)
Definition orf_high (i : Z) : Z :=
  match find (fun high => Z.testbit i (11 - high)) (zrange 0 12) with Some high => high | None => 12 end.
(** orf.rs:94.  A carry is an i32, which has no bits left after 31 turns. *)
Fixpoint orf_nbits (fuel : nat) (carry i nbits : Z) : res Z :=
  match fuel with
  | O => Loop
  | S fuel =>
      s <- shamt 32 (nbits + i) ;;
      if 0 <? Z.shiftr carry s &&& 0xffff then orf_nbits fuel carry i (nbits + 1) else Ok nbits
  end.
(** orf.rs:92-113: the difference of one pixel, its two low bits and the new
    state of its parity *)
Definition orf_diff (c0 c1 c2 : Z) (p : pump) : res (Z * Z * (Z * Z * Z) * pump) :=
  let i := if c2 <? 3 then 2 else 0 in
  nbits <- orf_nbits 40 c0 i (2 + i) ;;
  let nbits := Z.min nbits 16 in
  '(b, p) <- peek_ibits MSB p 15 ;;
  let sign := - (b >>> 14) in
  let low := b >>> 12 &&& 3 in
  let high := orf_high (b &&& 4095) in
  '(high, p) <- (if high =? 12 then
                   p <- consume_bits MSB p 15 ;; '(h, p) <- get_ibits MSB p (16 - nbits) ;; Ok (h >>> 1, p)
                 else p <- consume_bits MSB p (high + 4) ;; Ok (high, p)) ;;
  '(v, p) <- get_ibits MSB p nbits ;;
  let c0 := as_i32 (Z.lor (Z.shiftl high nbits) v) in
  diff <- i32add (Z.lxor c0 sign) c1 ;;
  d3 <- i32mul diff 3 ;; s <- i32add d3 c1 ;;
  c2 <- (if 16 <? c0 then Ok 0 else i32add c2 1) ;;
  Ok (diff, low, (c0, s >>> 5, c2), p).
Definition i32abs (v : Z) : res Z := arith_s 32 (Z.abs v).
(** orf.rs:127-139: the prediction inside the picture *)
Definition orf_pred (lft up nw : Z) : res Z :=
  a <- i32sub lft nw ;; b <- i32sub up nw ;; m <- i32mul a b ;;
  if m <? 0 then
    aa <- i32abs a ;;
    far <- (if 32 <? aa then Ok true else ab <- i32abs b ;; Ok (32 <? ab)) ;;
    if far then i32add lft b else s <- i32add lft up ;; Ok (s >>> 1)
  else
    aa <- i32abs a ;; ab <- i32abs b ;;
    Ok (if ab <? aa then lft else up).
(** orf.rs:115-144: one pixel.  [left] and [nw] are those of its parity. *)
Definition orf_pixel (width row col s diff low lft nw : Z) (out : list Z) : res (Z * Z * list Z) :=
  '(pred, nw) <-
    (if (row <? 2) && (col <? 2) then Ok (0, nw)
     else if row <? 2 then Ok (lft, nw)
     else
       up <- get out ((row - 2) * width + (col + s)) ;;
       if col <? 2 then Ok (up, up) else pred <- orf_pred lft up nw ;; Ok (pred, up)) ;;
  lft <- i32add pred (Z.lor (as_i32 (Z.shiftl diff 2)) low) ;;
  out <- upd out (row * width + (col + s)) (as_u16 lft) ;;
  Ok (lft, nw, out).
(** One of the two parities: acarry, left, nw *)
Definition orf_step (width row col s : Z) (st : Z * Z * Z * Z * Z) (p : pump) (out : list Z)
  : res (Z * Z * Z * Z * Z * pump * list Z) :=
  let '(c0, c1, c2, lft, nw) := st in
  '(diff, low, (c0, c1, c2), p) <- orf_diff c0 c1 c2 p ;;
  '(lft, nw, out) <- orf_pixel width row col s diff low lft nw out ;;
  Ok (c0, c1, c2, lft, nw, p, out).
(** orf.rs:69-149 [decode_compressed] *)
Definition orf_decompress (buf : list Z) (width height : Z) : res (list Z) :=
  src <- slice_from buf 7 ;;
  '(_, _, _, _, _, out) <- rfold (fun row '(l0, n0, l1, n1, p, out) =>
      '((_, _, _, l0, n0), (_, _, _, l1, n1), p, out) <- rfold (fun c '(s0, s1, p, out) =>
          let col := c * 2 in
          '(a0, a1, a2, l, n, p, out) <- orf_step width row col 0 s0 p out ;;
          '(b0, b1, b2, m, o, p, out) <- orf_step width row col 1 s1 p out ;;
          Ok ((a0, a1, a2, l, n), (b0, b1, b2, m, o), p, out))
        (zrange 0 (width / 2)) ((0, 0, 0, l0, n0), (0, 0, 0, l1, n1), p, out) ;;
      Ok (l0, n0, l1, n1, p, out))
    (zrange 0 height) (0, 0, 0, 0, pump_new src, zeros (width * height)) ;;
  Ok out.
(** orf.rs:151-171 [get_wb] *)
Definition orf_wb (buf : list Z) (tiff : ifd) : res (vec4 f32) :=
  match find_entry tiff T_OlympusRedMul, find_entry tiff T_OlympusBlueMul with
  | Some redmul, Some bluemul =>
      r <- get_u32 redmul 0 ;; b <- get_u32 bluemul 0 ;; Ok (V4 (f32_of r) (flit 256 1) (f32_of b) NAN)
  | _, _ =>
      iproc <- fetch_tag tiff T_OlympusImgProc ;;
      poff <- usub (e_parent iproc) 12 ;;
      o <- get_u32 iproc 0 ;;
      i <- ifd_new buf (o + poff) 0 0 (i_endian tiff) ;;
      wbs <- fetch_tag i T_ImageWidth ;;
      wbs <- (if e_count wbs =? 4 then
                data <- slice_from buf (poff + e_doffset wbs) ;; Ok (copy_with_new_data wbs data)
              else Ok wbs) ;;
      r <- get_u32 wbs 0 ;; b <- get_u32 wbs 1 ;; Ok (V4 (f32_of r) (flit 256 1) (f32_of b) NAN)
  end.
(** orf.rs:25-57 [image] *)
Definition orf_image (l : loader) (buf : list Z) (tiff : ifd) : res (rawimage f32) :=
  camera <- check_supported l tiff ;;
  raw <- fetch_ifd tiff T_StripOffsets ;;
  width <- tag_usize raw T_ImageWidth ;;
  height <- tag_usize raw T_ImageLength ;;
  offset <- tag_usize raw T_StripOffsets ;;
  counts <- fetch_tag raw T_StripByteCounts ;;
  size <- rfold (fun i size => v <- get_u32 counts i ;; Ok (size + v)) (zrange 0 (e_count counts)) 0 ;;
  src <- slice_from buf offset ;;
  image <- (if width * height * 2 <=? size then
              (if little (i_endian tiff) then decode_12le_unpacked_left_aligned src width height
               else decode_12be_unpacked_left_aligned src width height)
            else if width * height / 10 * 16 <=? size then decode_12le_wcontrol src width height
            else if width * height * 12 / 8 <=? size then
              (if width <? 3500 then decode_12be_interlaced src width height else decode_12be_msb32 src width height)
            else orf_decompress src width height) ;;
  wb <- orf_wb buf tiff ;;
  ok_image camera width height wb image.

(** ** Panasonic *)
(** rw2.rs:130-146 [BitPumpPanasonic] *)
Record pana := mkpana { n_buf : list Z; n_pos : Z; n_nbits : Z; n_split : bool }.
Definition pana_new (src : list Z) (split : bool) : pana := mkpana src 0 0 split.
(** rw2.rs:149-160 [peek_bits] *)
Definition pana_peek (p : pana) (num : Z) : res (Z * pana) :=
  p <- (if n_nbits p <? num then
          nb <- u32add (n_nbits p) 0x20000 ;; Ok (mkpana (n_buf p) (n_pos p + 0x4000) nb (n_split p))
        else Ok p) ;;
  n <- u32sub (n_nbits p) num ;;
  let byte := Z.lxor (n >>> 3) 0x3ff0 in
  byte <- (if n_split p then b <- u32add byte 0x4000 ;; b <- u32sub b 0x2008 ;; Ok (b mod 0x4000) else Ok byte) ;;
  at_ <- usub (byte + n_pos p) 0x4000 ;;
  bits <- LEu16 (n_buf p) at_ ;;
  s <- u32sub 32 num ;; mask <- shr_u 32 0xffffffff s ;;
  Ok (bits >>> (n &&& 7) &&& mask, p).
(** rw2.rs:162-164 [consume_bits], pumps.rs:89-98 [get_bits] *)
Definition pana_bits (p : pana) (num : Z) : res (Z * pana) :=
  if num =? 0 then Ok (0, p)
  else
    '(v, p) <- pana_peek p num ;;
    nb <- u32sub (n_nbits p) num ;; Ok (v, mkpana (n_buf p) (n_pos p) nb (n_split p)).
(** rw2.rs:110-116: the next value of a parity that has had one *)
Definition pana_next (j sh pred : Z) : res Z :=
  if negb (j =? 0) then
    pred <- i32sub pred (Z.shiftl 0x80 sh) ;;
    let pred := if (pred <? 0) || (sh =? 4) then pred &&& (2 ^ sh - 1) else pred in
    i32add pred (Z.shiftl j sh)
  else Ok pred.
(** rw2.rs:105-123: one pixel.  State: (reader, sh, pred, nonz, pixels) *)
Definition pana_pixel (i : Z) (st : pana * Z * list Z * list Z * list Z) : res (pana * Z * list Z * list Z * list Z) :=
  let '(p, sh, preds, nonzs, out) := st in
  '(sh, p) <- (if i mod 3 =? 2 then '(b, p) <- pana_bits p 2 ;; s <- u32sub 3 b ;; Ok (4 >>> s, p) else Ok (sh, p)) ;;
  nonz <- get nonzs (i &&& 1) ;; pred <- get preds (i &&& 1) ;;
  '(nonz, pred, p) <-
    (if negb (nonz =? 0) then '(j, p) <- pana_bits p 8 ;; pred <- pana_next j sh pred ;; Ok (nonz, pred, p)
     else
       '(nonz, p) <- pana_bits p 8 ;;
       if negb (nonz =? 0) || (11 <? i) then
         '(b, p) <- pana_bits p 4 ;; Ok (nonz, Z.lor (Z.shiftl nonz 4) b, p)
       else Ok (nonz, pred, p)) ;;
  nonzs <- upd nonzs (i &&& 1) nonz ;; preds <- upd preds (i &&& 1) pred ;;
  out <- upd out i (as_u16 pred) ;;
  Ok (p, sh, preds, nonzs, out).
(** rw2.rs:101-124: fourteen pixels *)
Definition pana_group (out : list Z) (st : pana * Z * list Z) : res (pana * Z * list Z) :=
  let '(p, sh, done) := st in
  '(p, sh, _, _, out) <- rfold pana_pixel (zrange 0 14) (p, sh, [0; 0], [0; 0], out) ;;
  Ok (p, sh, done ++ out).
(** rw2.rs:89-127 [decode_panasonic] *)
Definition pana_decompress (buf : list Z) (width height : Z) (split : bool) : res (list Z) :=
  decode_threaded_multiline width height 5 (fun out row =>
    let skip := (width * row * 9 + width / 14 * 2 * row) / 8 in
    src <- slice_from buf (skip / 0x4000 * 0x4000) ;;
    p <- rfold (fun _ p => '(_, p) <- pana_bits p 8 ;; Ok p) (zrange 0 (skip mod 0x4000)) (pana_new src split) ;;
    '(_, _, done) <- rfold pana_group (chunks 14 out) (p, 0, []) ;;
    Ok done).
(** rw2.rs:72-87 [get_wb] *)
Definition rw2_wb (tiff : ifd) : res (vec4 f32) :=
  let level t := en <- fetch_tag tiff t ;; v <- get_u32 en 0 ;; Ok (f32_of v) in
  if has_entry tiff T_PanaWBsR && has_entry tiff T_PanaWBsB then
    r <- level T_PanaWBsR ;; b <- level T_PanaWBsB ;; Ok (V4 r (flit 256 1) b NAN)
  else if has_entry tiff T_PanaWBs2R && has_entry tiff T_PanaWBs2G && has_entry tiff T_PanaWBs2B then
    r <- level T_PanaWBs2R ;; g <- level T_PanaWBs2G ;; b <- level T_PanaWBs2B ;; Ok (V4 r g b NAN)
  else Err "Couldn't find WB".
(** rw2.rs:53-65: the name of the aspect ratio *)
Definition rw2_mode (width height : Z) : string :=
  let ratio := width * 100 / height in
  if ratio <? 125 then "1:1" else if ratio <? 145 then "4:3" else if ratio <? 165 then "3:2" else "16:9".
(** rw2.rs:24-69 [image] *)
Definition rw2_image (l : loader) (buf : list Z) (tiff : ifd) : res (rawimage f32) :=
  '(width, height, image) <-
    (match find_first_ifd tiff T_PanaOffsets with
     | Some raw =>
         width <- tag_usize raw T_PanaWidth ;; height <- tag_usize raw T_PanaLength ;;
         offset <- tag_usize raw T_PanaOffsets ;;
         src <- slice_from buf offset ;;
         image <- pana_decompress src width height true ;; Ok (width, height, image)
     | None =>
         raw <- fetch_ifd tiff T_StripOffsets ;;
         width <- tag_usize raw T_PanaWidth ;; height <- tag_usize raw T_PanaLength ;;
         offset <- tag_usize raw T_StripOffsets ;;
         src <- slice_from buf offset ;;
         image <- (if width * height * 2 <=? zlen src then decode_12le_unpacked_left_aligned src width height
                   else if width * height * 3 / 2 <=? zlen src then decode_12le_wcontrol src width height
                   else pana_decompress src width height false) ;;
         Ok (width, height, image)
     end) ;;
  if height =? 0 then Panic
  else
    camera <- check_supported_with_mode l tiff (rw2_mode width height) ;;
    wb <- rw2_wb tiff ;;
    ok_image camera width height wb image.

(** ** Sony *)
(** arw.rs:207-226 [get_wb] *)
Definition arw_wb (buf : list Z) (tiff : ifd) : res (vec4 f32) :=
  area <- fetch_tag tiff T_DNGPrivateArea ;; priv_offset <- get_force_u32 area 0 ;;
  priv <- ifd_new buf priv_offset 0 0 LITTLE_ENDIAN ;;
  offset <- tag_usize priv T_SonyOffset ;;
  len <- tag_usize priv T_SonyLength ;;
  key <- tag_usize priv T_SonyKey ;;
  dec <- sony_decrypt buf offset len key ;;
  i <- unwrap (ifd_new dec 0 offset 0 LITTLE_ENDIAN) ;;
  match find_entry i T_SonyGRBG, find_entry i T_SonyRGGB with
  | Some levels, _ =>
      r <- get_u32 levels 1 ;; g <- get_u32 levels 0 ;; b <- get_u32 levels 2 ;; Ok (V4 (f32_of r) (f32_of g) (f32_of b) NAN)
  | None, Some levels =>
      r <- get_u32 levels 0 ;; g <- get_u32 levels 1 ;; b <- get_u32 levels 3 ;; Ok (V4 (f32_of r) (f32_of g) (f32_of b) NAN)
  | None, None => Err "ARW: Couldn't find GRGB or RGGB levels"
  end.
(** arw.rs:96-108: the white balance, written the Minolta way.  Each turn
    advances by eight bytes or more inside [buf]. *)
Fixpoint a100_wb (fuel : nat) (buf : list Z) (currpos : Z) : res (vec4 f32) :=
  match fuel with
  | O => Loop
  | S fuel =>
      if currpos + 20 <? zlen buf then
        tag <- BEu32 buf currpos ;;
        len <- LEu32 buf (currpos + 4) ;;
        if tag =? 0x574247 then
          r <- LEu16 buf (currpos + 12) ;; g <- LEu16 buf (currpos + 14) ;; b <- LEu16 buf (currpos + 18) ;;
          Ok (V4 (f32_of r) (f32_of g) (f32_of b) NAN)
        else a100_wb fuel buf (currpos + (len + 8))
      else Ok (V4 (flit 0 1) (flit 0 1) (flit 0 1) NAN)
  end.
(** arw.rs:76-111 [image_a100] *)
Definition a100_image (buf : list Z) (tiff : ifd) (camera : camera) : res (rawimage f32) :=
  match find_first_ifd tiff T_SubIFDs with
  | None => Err "ARW: Couldn't find the data IFD!"
  | Some raw =>
      offset <- tag_usize raw T_SubIFDs ;;
      src <- slice_from buf offset ;;
      image <- decode_arw1 src 3881 2608 ;;
      area <- fetch_tag tiff T_DNGPrivateArea ;; priv_offset <- get_force_u32 area 0 ;;
      priv <- slice_from buf priv_offset ;;
      wb <- a100_wb (S (length priv)) priv 8 ;;
      ok_image camera 3881 2608 wb image
  end.
(** arw.rs:113-140 [image_srf] *)
Definition srf_image (buf : list Z) (tiff : ifd) (camera : camera) : res (rawimage f32) :=
  match find_first_ifd tiff T_ImageWidth with
  | None => Err "ARW: Couldn't find the data IFD!"
  | Some raw =>
      width <- tag_usize raw T_ImageWidth ;;
      height <- tag_usize raw T_ImageLength ;;
      let len := width * height * 2 in
      k <- get buf 200896 ;;
      first_key <- BEu32 buf (200896 + k * 4) ;;
      head <- sony_decrypt buf 164600 40 first_key ;;
      second_key <- LEu32 head 22 ;;
      data <- sony_decrypt buf 862144 len second_key ;;
      image <- decode_16be data width height ;;
      ok_image camera width height nans image
  end.
(** arw.rs:228-244 [get_curve] *)
Definition arw_get_curve (raw : ifd) : res ltable :=
  en <- fetch_tag raw T_SonyCurve ;;
  entries <- mapM (fun i => get_u32 en i) (zrange 0 4) ;;
  arw_curve entries.
(** arw.rs:25-73 [image] *)
Definition arw_image (l : loader) (buf : list Z) (tiff : ifd) : res (rawimage f32) :=
  camera <- check_supported l tiff ;;
  match find_first_ifd tiff T_StripOffsets with
  | None => if String.eqb (c_model camera) "DSLR-A100" then a100_image buf tiff camera else srf_image buf tiff camera
  | Some raw =>
      width <- tag_usize raw T_ImageWidth ;;
      height <- tag_usize raw T_ImageLength ;;
      offset <- tag_usize raw T_StripOffsets ;;
      count <- tag_usize raw T_StripByteCounts ;;
      compression <- tag_usize raw T_Compression ;;
      bps <- (if negb (c_bps camera =? 0) then Ok (c_bps camera) else tag_usize raw T_BitsPerSample) ;;
      src <- slice_from buf offset ;;
      '(height, image) <-
        (if compression =? 1 then
           image <- (if String.eqb (c_model camera) "DSC-R1" then decode_14be_unpacked src width height
                     else decode_16le src width height) ;; Ok (height, image)
         else if compression =? 32767 then
           if negb (width * height * bps =? count * 8) then
             image <- decode_arw1 src width (height + 8) ;; Ok (height + 8, image)
           else if bps =? 8 then
             curve <- arw_get_curve raw ;; image <- decode_arw2 src width height curve ;; Ok (height, image)
           else if bps =? 12 then image <- decode_12le src width height ;; Ok (height, image)
           else Err "ARW2: Don't know how to decode images with this bps"
         else Err "ARW: Don't know how to decode type") ;;
      wb <- arw_wb buf tiff ;;
      ok_image camera width height wb image
  end.
End Pred.
