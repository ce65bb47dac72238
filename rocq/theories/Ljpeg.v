(** Model of src/decoders/ljpeg/mod.rs and decompressors.rs: lossless JPEG.
    Error messages that carry numbers are given without them. *)
From Coq Require Import String ZArith List Bool.
From Verif Require Import Base Bytes Pumps ByteStream Threads Packed Huffman.
Import ListNotations.
Local Open Scope Z_scope.

(** mod.rs:23-34 [JpegComponentInfo] (the index is never used) *)
Record component := mkcomp { c_id : Z; c_tbl : Z; c_super_h : Z; c_super_v : Z }.
(** mod.rs:36-44 [SOFInfo] *)
Record sofinfo := mksof {
  s_width : Z; s_height : Z; s_cps : Z; s_precision : Z; s_comps : list component; s_csfix : bool
}.
(** mod.rs:46-56 *)
Definition sof_empty (csfix : bool) : sofinfo := mksof 0 0 0 0 [] csfix.

(** mod.rs:119-126 [LjpegDecompressor] *)
Record ljpeg := mkljpeg {
  lj_buffer : list Z; lj_sof : sofinfo; lj_pred : Z; lj_pt : Z; lj_dhts : list hufftable
}.

Section Parse.
Context {M : Mode}.

(** mod.rs:58-89 [parse_sof] *)
Definition parse_sof (s : sofinfo) (buf : list Z) (pos : Z) : res (sofinfo * Z) :=
  '(header_length, pos) <- bs_u16 BIG_ENDIAN buf pos ;;
  '(precision, pos) <- bs_u8 buf pos ;;
  '(height, pos) <- bs_u16 BIG_ENDIAN buf pos ;;
  '(width, pos) <- bs_u16 BIG_ENDIAN buf pos ;;
  '(cps, pos) <- bs_u8 buf pos ;;
  if 16 <? precision then Err "ljpeg: More than 16 bits per channel is not supported."%string
  else if (4 <? cps) || (cps <? 1) then Err "ljpeg: Only from 1 to 4 components are supported."%string
  else if negb (header_length =? 8 + cps * 3) then Err "ljpeg: Header size mismatch."%string
  else
    '(comps, pos) <- rfold (fun _ '(cs, pos) =>
        '(id, pos) <- bs_u8 buf pos ;;
        '(subs, pos) <- bs_u8 buf pos ;;
        '(_, pos) <- bs_u8 buf pos ;;
        Ok (cs ++ [mkcomp id 0 (Z.shiftr subs 4) (Z.land subs 0xf)], pos))
      (zrange 0 cps) (s_comps s, pos) ;;
    Ok (mksof width height cps precision comps (s_csfix s), pos).

(** mod.rs:104-112: [find] the component and set its table *)
Fixpoint set_table (cs : list component) (id td : Z) : option (list component) :=
  match cs with
  | [] => None
  | c :: t =>
      if c_id c =? id then Some (mkcomp (c_id c) td (c_super_h c) (c_super_v c) :: t)
      else match set_table t id td with Some t' => Some (c :: t') | None => None end
  end.

(** mod.rs:91-117 [parse_sos].  The component is looked up before its table
    number is read and checked. *)
Definition parse_sos (s : sofinfo) (buf : list Z) (pos : Z) : res (sofinfo * Z * Z * Z) :=
  if s_width s =? 0 then Err "ljpeg: Trying to parse SOS before SOF"%string else
  '(_, pos) <- bs_u16 BIG_ENDIAN buf pos ;;
  '(soscps, pos) <- bs_u8 buf pos ;;
  if negb (s_cps s =? soscps) then Err "ljpeg: component number mismatch in SOS"%string else
  '(comps, pos) <- rfold (fun cs '(comps, pos) =>
      '(readcs, pos) <- bs_u8 buf pos ;;
      let cs := if s_csfix s then cs else readcs in
      match set_table comps cs 0 with
      | None => Err "ljpeg: invalid component selector"%string
      | Some _ =>
          '(b, pos) <- bs_u8 buf pos ;;
          let td := Z.shiftr b 4 in
          if 3 <? td then Err "ljpeg: Invalid Huffman table selection"%string
          else match set_table comps cs td with
               | Some comps' => Ok (comps', pos)
               | None => Panic
               end
      end)
    (zrange 0 (s_cps s)) (s_comps s, pos) ;;
  '(pred, pos) <- bs_u8 buf pos ;;
  '(_, pos) <- bs_u8 buf pos ;;
  '(b, pos) <- bs_u8 buf pos ;;
  Ok (mksof (s_width s) (s_height s) (s_cps s) (s_precision s) comps (s_csfix s), pred, Z.land b 0xf, pos).

(** mod.rs:190-204 [get_next_marker] *)
Definition next_marker (buf : list Z) (pos : Z) (allowskip : bool) : res (Z * Z) :=
  if negb allowskip then
    '(b, pos) <- bs_u8 buf pos ;;
    if negb (b =? 0xff) then Err "ljpeg: (noskip) expected marker not found"%string else
    '(mark, pos) <- bs_u8 buf pos ;;
    if (mark =? 0) || (mark =? 0xff) then Err "ljpeg: (noskip) expected marker but found stuff or fill"%string
    else Ok (mark, pos)
  else
    pos <- bs_skip_to_marker buf pos ;; bs_u8 buf pos.

(** [dht_init], [dht_bits] and [dht_huffval] of mod.rs:142-144 *)
Record dhts := mkdhts { d_init : list bool; d_bits : list (list Z); d_vals : list (list Z) }.

(** mod.rs:206-246 [parse_dht].  [fuel]: [length] goes down by at least 17. *)
Fixpoint parse_tables (fuel : nat) (buf : list Z) (d : dhts) (len pos : Z) : res (dhts * Z) :=
  match fuel with
  | O => Loop
  | S fuel' =>
      if len <=? 0 then Ok (d, pos) else
      '(b, pos) <- bs_u8 buf pos ;;
      let tc := Z.shiftr b 4 in
      let th := Z.land b 0xf in
      if negb (tc =? 0) then Err "ljpeg: unsuported table class in DHT"%string
      else if 3 <? th then Err "ljpeg: unsuported table id"%string
      else
        bits0 <- get (d_bits d) th ;;
        '(bits, acc, pos) <- rfold (fun i '(bits, acc, pos) =>
            '(v, pos) <- bs_u8 buf pos ;;
            bits <- upd bits (i + 1) v ;;
            Ok (bits, acc + v, pos)) (zrange 0 16) (bits0, 0, pos) ;;
        bits <- upd bits 0 0 ;;
        dbits <- upd (d_bits d) th bits ;;
        if 256 <? acc then Err "ljpeg: invalid DHT table"%string
        else if len <? 1 + 16 + acc then Err "ljpeg: invalid DHT table length"%string
        else
          vals0 <- get (d_vals d) th ;;
          '(vals, pos) <- rfold (fun i '(vals, pos) =>
              '(v, pos) <- bs_u8 buf pos ;;
              vals <- upd vals i v ;;
              Ok (vals, pos)) (zrange 0 acc) (vals0, pos) ;;
          dvals <- upd (d_vals d) th vals ;;
          dinit <- upd (d_init d) th true ;;
          parse_tables fuel' buf (mkdhts dinit dbits dvals) (len - (1 + 16 + acc)) pos
  end.
Definition parse_dht (d : dhts) (buf : list Z) (pos : Z) : res (dhts * Z) :=
  '(v, pos) <- bs_u16 BIG_ENDIAN buf pos ;;
  len <- usub v 2 ;;
  parse_tables (S (length buf)) buf d len pos.

(** mod.rs:147-170: the marker loop of [new_full].  [fuel]: every turn moves
    forward in the buffer. *)
Fixpoint marker_loop (fuel : nat) (buf : list Z) (s : sofinfo) (d : dhts) (pos : Z)
  : res (sofinfo * dhts * Z * Z * Z) :=
  match fuel with
  | O => Loop
  | S fuel' =>
      '(marker, pos) <- next_marker buf pos true ;;
      if marker =? 0xc3 then
        '(s, pos) <- parse_sof s buf pos ;;
        if (16 <? s_precision s) || (s_precision s <? 12) then Err "ljpeg: sof.precision"%string
        else marker_loop fuel' buf s d pos
      else if marker =? 0xc4 then
        '(d, pos) <- parse_dht d buf pos ;; marker_loop fuel' buf s d pos
      else if marker =? 0xda then
        '(s, pred, pt, pos) <- parse_sos s buf pos ;; Ok (s, d, pred, pt, pos)
      else if marker =? 0xd9 then Err "ljpeg: reached EOI before SOS"%string
      else if marker =? 0xdb then Err "ljpeg: not a valid raw file, found DQT"%string
      else marker_loop fuel' buf s d pos
  end.

Definition no_dhts : dhts := mkdhts (repeat false 4) (repeat (zeros 17) 4) (repeat (zeros 256) 4).

(** mod.rs:135-188 [new_full] *)
Definition ljpeg_new_full (src : list Z) (dng_bug csfix : bool) : res ljpeg :=
  '(marker, pos) <- next_marker src 0 false ;;
  if negb (marker =? 0xd8) then Err "ljpeg: Image did not start with SOI. Probably not LJPEG"%string else
  '(s, d, pred, pt, pos) <- marker_loop (S (length src)) src (sof_empty csfix) no_dhts pos ;;
  tables <- mapM (fun i =>
      init <- get (d_init d) i ;;
      if init : bool then
        bits <- get (d_bits d) i ;; vals <- get (d_vals d) i ;;
        huff_new bits vals (s_precision s) dng_bug
      else Ok (huff_empty 0)) (zrange 0 4) ;;
  buffer <- slice_from src pos ;;
  Ok (mkljpeg buffer s pred pt tables).
(** mod.rs:129-131 [new] *)
Definition ljpeg_new (src : list Z) : res ljpeg := ljpeg_new_full src false false.

(** mod.rs:296-299 *)
Definition lj_width (lj : ljpeg) : Z := s_width (lj_sof lj) * s_cps (lj_sof lj).
Definition lj_height (lj : ljpeg) : Z := s_height (lj_sof lj).

(** [ljpeg.dhts[ljpeg.sof.components[i].dc_tbl_num]] *)
Definition lj_table (lj : ljpeg) (i : Z) : res hufftable :=
  c <- get (s_comps (lj_sof lj)) i ;; get (lj_dhts lj) (c_tbl c).

(** [1 << (precision - point_transform - 1)] *)
Definition base_prediction (lj : ljpeg) : res Z :=
  a <- usub (s_precision (lj_sof lj)) (lj_pt lj) ;; b <- usub a 1 ;; shl_i32 1 b.

(** One difference from each table in turn. *)
Fixpoint diffs (k : pkind) (ts : list hufftable) (p : pump) : res (list Z * pump) :=
  match ts with
  | [] => Ok ([], p)
  | t :: ts' => '(d, p) <- huff_decode k t p ;; '(ds, p) <- diffs k ts' p ;; Ok (d :: ds, p)
  end.

(** [out[pos] = (base + try!(t.huff_decode(..))) as u16; out[pos+1] = ...] *)
Fixpoint first_pixel (ts : list hufftable) (base : Z) (out : list Z) (pos : Z) (p : pump) : res (list Z * pump) :=
  match ts with
  | [] => Ok (out, p)
  | t :: ts' =>
      '(d, p) <- huff_decode JPEG t p ;;
      v <- i32add base d ;;
      out <- upd out pos (as_u16 v) ;;
      first_pixel ts' base out (pos + 1) p
  end.

(** decompressors.rs:33-36 and the like: predictions at [from], one difference
    per component, results at [to]. *)
Definition next_pixel (ts : list hufftable) (out : list Z) (from to : Z) (p : pump) : res (list Z * pump) :=
  ps <- mapM (fun i => get out (from + i)) (zrange 0 (zlen ts)) ;;
  '(ds, p) <- diffs JPEG ts p ;;
  vs <- mapM (fun '(a, d) => v <- i32add a d ;; Ok (as_u16 v)) (combine ps ds) ;;
  out <- store out to vs ;;
  Ok (out, p).

(** decompressors.rs:6-43, 45-91 and 93-141: [decode_ljpeg_2components],
    [decode_ljpeg_3components] and [decode_ljpeg_4components], which are the same
    but for the number [n] of components; the one for four components has [x = 0]
    and [stripwidth = width].  In row 0 the columns start after [x], so [row - 1]
    does not underflow. *)
Definition decode_components (n : Z) (lj : ljpeg) (out : list Z) (x stripwidth width height : Z) : res (list Z) :=
  let s := lj_sof lj in
  if (s_width s * n <? width) || (s_height s <? height) then Err "ljpeg: trying to decode"%string else
  ts <- mapM (lj_table lj) (zrange 0 n) ;;
  base <- base_prediction lj ;;
  '(out, p) <- first_pixel ts base out x (pump_new (lj_buffer lj)) ;;
  skip_x <- usub (s_width s) (width / n) ;;
  '(out, _) <- rfold (fun row '(out, p) =>
      let startcol := if row =? 0 then x + n else x in
      '(out, p) <- rfold (fun col '(out, p) =>
          let from := if col =? x then (row - 1) * stripwidth + x else row * stripwidth + col - n in
          next_pixel ts out from (row * stripwidth + col) p)
        (zrange_step startcol (width + x) n) (out, p) ;;
      p <- rfold (fun _ p => '(_, p) <- diffs JPEG ts p ;; Ok p) (zrange 0 skip_x) p ;;
      Ok (out, p))
    (zrange 0 height) (out, p) ;;
  Ok out.

(** decompressors.rs:143-162 [set_yuv_420] *)
Definition set_yuv_420 (out : list Z) (row col width y1 y2 y3 y4 cb cr : Z) : res (list Z) :=
  let pix1 := row * width + col in
  let pix3 := (row + 1) * width + col in
  out <- store out pix1 (map as_u16 [y1; cb; cr; y2; cb; cr]) ;;
  store out pix3 (map as_u16 [y3; cb; cr; y4; cb; cr]).

(** Successive sums of differences, decompressors.rs:181-184: y1 = base + d1,
    y2 = y1 + d2, ... *)
Fixpoint running (n : nat) (t : hufftable) (y : Z) (p : pump) : res (list Z * pump) :=
  match n with
  | O => Ok ([], p)
  | S n' =>
      '(d, p) <- huff_decode JPEG t p ;;
      y <- i32add y d ;;
      '(ys, p) <- running n' t y p ;;
      Ok (y :: ys, p)
  end.

(** decompressors.rs:164-212 [decode_ljpeg_420] *)
Definition block_420 (t1 t2 t3 : hufftable) (out : list Z) (row col width py pcb pcr : Z) (p : pump)
  : res (list Z * pump) :=
  '(ys, p) <- running 4 t1 py p ;;
  '(d2, p) <- huff_decode JPEG t2 p ;; cb <- i32add pcb d2 ;;
  '(d3, p) <- huff_decode JPEG t3 p ;; cr <- i32add pcr d3 ;;
  match ys with
  | [y1; y2; y3; y4] => out <- set_yuv_420 out row col width y1 y2 y3 y4 cb cr ;; Ok (out, p)
  | _ => Panic
  end.
Definition decode_ljpeg_420 (lj : ljpeg) (out : list Z) (width height : Z) : res (list Z) :=
  let s := lj_sof lj in
  if negb (s_width s * 3 =? width) || negb (s_height s =? height) then Err "ljpeg: trying to decode"%string else
  t1 <- lj_table lj 0 ;; t2 <- lj_table lj 1 ;; t3 <- lj_table lj 2 ;;
  base <- base_prediction lj ;;
  '(out, p) <- block_420 t1 t2 t3 out 0 0 width base base base (pump_new (lj_buffer lj)) ;;
  '(out, _) <- rfold (fun row '(out, p) =>
      let startcol := if row =? 0 then 6 else 0 in
      rfold (fun col '(out, p) =>
          let pos := if col =? 0 then (row - 2) * width else (row + 1) * width + col - 3 in
          py <- get out pos ;; pcb <- get out (pos + 1) ;; pcr <- get out (pos + 2) ;;
          block_420 t1 t2 t3 out row col width py pcb pcr p)
        (zrange_step startcol width 6) (out, p))
    (zrange_step 0 height 2) (out, p) ;;
  Ok out.

(** decompressors.rs:214-224 [set_yuv_422] *)
Definition set_yuv_422 (out : list Z) (row col width y1 y2 cb cr : Z) : res (list Z) :=
  store out (row * width + col) (map as_u16 [y1; cb; cr; y2; cb; cr]).
(** decompressors.rs:226-268 [decode_ljpeg_422] *)
Definition block_422 (t1 t2 t3 : hufftable) (out : list Z) (row col width py pcb pcr : Z) (p : pump)
  : res (list Z * pump) :=
  '(ys, p) <- running 2 t1 py p ;;
  '(d2, p) <- huff_decode JPEG t2 p ;; cb <- i32add pcb d2 ;;
  '(d3, p) <- huff_decode JPEG t3 p ;; cr <- i32add pcr d3 ;;
  match ys with
  | [y1; y2] => out <- set_yuv_422 out row col width y1 y2 cb cr ;; Ok (out, p)
  | _ => Panic
  end.
Definition decode_ljpeg_422 (lj : ljpeg) (out : list Z) (width height : Z) : res (list Z) :=
  let s := lj_sof lj in
  if negb (s_width s * 3 =? width) || negb (s_height s =? height) then Err "ljpeg: trying to decode"%string else
  t1 <- lj_table lj 0 ;; t2 <- lj_table lj 1 ;; t3 <- lj_table lj 2 ;;
  base <- base_prediction lj ;;
  '(out, p) <- block_422 t1 t2 t3 out 0 0 width base base base (pump_new (lj_buffer lj)) ;;
  '(out, _) <- rfold (fun row '(out, p) =>
      let startcol := if row =? 0 then 6 else 0 in
      rfold (fun col '(out, p) =>
          let pos := if col =? 0 then (row - 1) * width else row * width + col - 3 in
          py <- get out pos ;; pcb <- get out (pos + 1) ;; pcr <- get out (pos + 2) ;;
          block_422 t1 t2 t3 out row col width py pcb pcr p)
        (zrange_step startcol width 6) (out, p))
    (zrange 0 height) (out, p) ;;
  Ok out.

(** decompressors.rs:270-290 [decode_hasselblad].  [chunks_mut(0)] panics; the
    lines are modified one after the other. *)
Definition hasselblad_pair (t : hufftable) (o : list Z) (st : Z * Z * pump) : res (list Z * (Z * Z * pump)) :=
  let '(p1, p2, p) := st in
  '(len1, p) <- huff_len MSB32 t p ;;
  '(len2, p) <- huff_len MSB32 t p ;;
  '(d1, p) <- huff_diff MSB32 t p len1 ;; p1 <- i32add p1 d1 ;;
  '(d2, p) <- huff_diff MSB32 t p len2 ;; p2 <- i32add p2 d2 ;;
  o <- upd o 0 (as_u16 p1) ;;
  o <- upd o 1 (as_u16 p2) ;;
  Ok (o, (p1, p2, p)).
Fixpoint map_state {A S : Type} (f : list A -> S -> res (list A * S)) (cs : list (list A)) (s : S) : res (list A * S) :=
  match cs with
  | [] => Ok ([], s)
  | c :: cs' => '(c, s) <- f c s ;; '(r, s) <- map_state f cs' s ;; Ok (c ++ r, s)
  end.
Definition decode_hasselblad (lj : ljpeg) (out : list Z) (width : Z) : res (list Z) :=
  t <- lj_table lj 0 ;;
  if width =? 0 then Panic else
  '(out, _) <- map_state (fun line p =>
      '(line, (_, _, p)) <- map_state (hasselblad_pair t) (chunks 2 line) (0x8000, 0x8000, p) ;;
      Ok (line, p))
    (chunks (Z.to_nat width) out) (pump_new (lj_buffer lj)) ;;
  Ok out.

(** mod.rs:248-267 [decode] *)
Definition ljpeg_decode (lj : ljpeg) (out : list Z) (x stripwidth width height : Z) : res (list Z) :=
  c0 <- get (s_comps (lj_sof lj)) 0 ;;
  if (c_super_h c0 =? 2) && (c_super_v c0 =? 2) then decode_ljpeg_420 lj out width height
  else if (c_super_h c0 =? 2) && (c_super_v c0 =? 1) then decode_ljpeg_422 lj out width height
  else if lj_pred lj =? 1 then
    let cps := s_cps (lj_sof lj) in
    if cps =? 2 then decode_components 2 lj out x stripwidth width height
    else if cps =? 3 then decode_components 3 lj out x stripwidth width height
    else if cps =? 4 then decode_components 4 lj out 0 width width height
    else Err "ljpeg: component files not supported"%string
  else if lj_pred lj =? 8 then decode_hasselblad lj out width
  else Err "ljpeg: predictor not supported"%string.

(** decompressors.rs:292-321 [decode_leaf_strip] *)
Definition decode_leaf_strip (src out : list Z) (width height : Z) (t1 t2 : hufftable) (bpred : Z) : res (list Z) :=
  '(out, p) <- first_pixel [t1; t2] bpred out 0 (pump_new src) ;;
  '(out, _) <- rfold (fun row '(out, p) =>
      let startcol := if row =? 0 then 2 else 0 in
      rfold (fun col '(out, p) =>
          let pos := if col =? 0 then (row - 1) * width else row * width + col - 2 in
          next_pixel [t1; t2] out pos (row * width + col) p)
        (zrange_step startcol width 2) (out, p))
    (zrange 0 height) (out, p) ;;
  Ok out.

(** mod.rs:271-281: the offsets of the strips.  [fuel]: as for [marker_loop]. *)
Fixpoint leaf_offsets (fuel : nat) (buf : list Z) (pos : Z) (offsets : list Z) : res (list Z) :=
  match fuel with
  | O => Loop
  | S fuel' =>
      match next_marker buf pos true with
      | Ok (marker, pos) => if marker =? 0xd9 then Ok offsets else leaf_offsets fuel' buf pos (offsets ++ [pos])
      | Err _ => Ok offsets
      | Panic => Panic
      | Loop => Loop
      end
  end.

(** [.unwrap()] *)
Definition unwrap {A} (r : res A) : res A := match r with Err _ => Panic | r => r end.

(** mod.rs:269-294 [decode_leaf] *)
Definition decode_leaf (lj : ljpeg) (width height : Z) : res (list Z) :=
  offsets <- leaf_offsets (S (length (lj_buffer lj))) (lj_buffer lj) 0 [0] ;;
  h1 <- usub height 1 ;;
  let nstrips := h1 / 8 + 1 in
  if negb (zlen offsets =? nstrips) then Err "MOS: wrong number of strips"%string else
  t1 <- lj_table lj 0 ;; t2 <- lj_table lj 1 ;;
  bpred <- base_prediction lj ;;
  decode_threaded_multiline width height 8 (fun strip row =>
    let block := row / 8 in
    offset <- get offsets block ;;
    let nlines := zlen strip / width in
    src <- slice_from (lj_buffer lj) offset ;;
    unwrap (decode_leaf_strip src strip width nlines t1 t2 bpred)).
End Parse.
