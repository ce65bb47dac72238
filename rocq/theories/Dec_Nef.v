(** Models of src/decoders/nef.rs (Nikon) and src/decoders/srw.rs (Samsung). *)
From Coq Require Import String DecimalString ZArith List Bool.
From Flocq Require Import BinarySingleNaN.
From Verif Require Import Base Num F32 Bytes Pumps Huffman Threads Lookup Packed Tiff Image Camera Decoder Dec_Pred.
Import ListNotations.
Local Open Scope Z_scope.

(** nef.rs:8-21 [NIKON_TREE] *)
Definition nikon_tree : list (list Z) := [
  [0; 1; 5; 1; 1; 1; 1; 1; 1; 2; 0; 0; 0; 0; 0; 0; 5; 4; 3; 6; 2; 7; 1; 0; 8; 9; 11; 10; 12; 0; 0; 0];
  [0; 1; 5; 1; 1; 1; 1; 1; 1; 2; 0; 0; 0; 0; 0; 0; 57; 90; 56; 39; 22; 5; 4; 3; 2; 1; 0; 11; 12; 12; 0; 0];
  [0; 1; 4; 2; 3; 1; 2; 0; 0; 0; 0; 0; 0; 0; 0; 0; 5; 4; 6; 3; 7; 2; 8; 1; 9; 0; 10; 11; 12; 0; 0; 0];
  [0; 1; 4; 3; 1; 1; 1; 1; 1; 2; 0; 0; 0; 0; 0; 0; 5; 6; 4; 7; 8; 3; 9; 2; 1; 0; 10; 11; 12; 13; 14; 0];
  [0; 1; 5; 1; 1; 1; 1; 1; 1; 1; 2; 0; 0; 0; 0; 0; 8; 92; 75; 58; 41; 7; 6; 5; 4; 3; 2; 1; 0; 13; 14; 0];
  [0; 1; 4; 2; 2; 3; 1; 2; 0; 0; 0; 0; 0; 0; 0; 0; 7; 6; 8; 5; 9; 4; 10; 3; 11; 12; 2; 0; 1; 13; 14; 0]].
(** nef.rs:43-60 [WB_SERIALMAP] *)
Definition wb_serialmap : list Z :=
  [193; 191; 109; 13; 89; 197; 19; 157; 131; 97; 107; 79; 199; 127; 61; 61; 83; 89; 227; 199; 233; 47; 149; 167; 149; 31; 223; 127; 43; 41; 199; 13;
   223; 7; 239; 113; 137; 61; 19; 61; 59; 19; 251; 13; 137; 193; 101; 31; 179; 13; 107; 41; 227; 251; 239; 163; 107; 71; 127; 149; 53; 167; 71; 79;
   199; 241; 89; 149; 53; 17; 41; 97; 241; 61; 179; 43; 13; 67; 137; 193; 157; 157; 137; 101; 241; 233; 223; 191; 61; 127; 83; 151; 229; 233; 149; 23;
   29; 61; 139; 251; 199; 227; 103; 167; 7; 241; 113; 167; 83; 181; 41; 137; 229; 43; 167; 23; 41; 233; 79; 197; 101; 109; 107; 239; 13; 137; 73; 47;
   179; 67; 83; 101; 29; 73; 163; 19; 137; 89; 239; 107; 239; 101; 29; 11; 89; 19; 227; 79; 157; 179; 41; 67; 43; 7; 29; 149; 89; 89; 71; 251;
   229; 233; 97; 71; 47; 53; 127; 23; 127; 239; 127; 149; 149; 113; 211; 163; 11; 113; 163; 173; 11; 59; 181; 251; 163; 191; 79; 131; 29; 173; 233; 47;
   113; 101; 163; 229; 7; 53; 61; 13; 181; 233; 229; 71; 59; 157; 239; 53; 163; 191; 179; 223; 83; 211; 151; 83; 73; 113; 7; 53; 97; 113; 47; 67;
   47; 17; 223; 23; 151; 251; 149; 59; 127; 107; 211; 37; 191; 173; 199; 197; 197; 181; 139; 239; 47; 211; 7; 107; 37; 73; 149; 37; 73; 109; 113; 199].
(** nef.rs:62-80 [WB_KEYMAP] *)
Definition wb_keymap : list Z :=
  [167; 188; 201; 173; 145; 223; 133; 229; 212; 120; 213; 23; 70; 124; 41; 76; 77; 3; 233; 37; 104; 17; 134; 179; 189; 247; 111; 97; 34; 162; 38; 52;
   42; 190; 30; 70; 20; 104; 157; 68; 24; 194; 64; 244; 126; 95; 27; 173; 11; 148; 182; 103; 180; 11; 225; 234; 149; 156; 102; 220; 231; 93; 108; 5;
   218; 213; 223; 122; 239; 246; 219; 31; 130; 76; 192; 104; 71; 161; 189; 238; 57; 80; 86; 74; 221; 223; 165; 248; 198; 218; 202; 144; 202; 1; 66; 157;
   139; 12; 115; 67; 117; 5; 148; 222; 36; 179; 128; 52; 229; 44; 220; 155; 63; 202; 51; 69; 208; 219; 95; 245; 82; 195; 33; 218; 226; 34; 114; 107;
   62; 208; 91; 168; 135; 140; 6; 93; 15; 221; 9; 25; 147; 208; 185; 252; 139; 15; 132; 96; 51; 28; 155; 69; 241; 240; 163; 148; 58; 18; 119; 51;
   77; 68; 120; 40; 60; 158; 253; 101; 87; 22; 148; 107; 251; 89; 208; 200; 34; 54; 219; 210; 99; 152; 67; 161; 4; 135; 134; 247; 166; 38; 187; 214;
   89; 77; 191; 106; 46; 170; 43; 239; 230; 120; 182; 78; 224; 47; 220; 124; 190; 87; 25; 50; 126; 42; 208; 184; 186; 41; 0; 60; 82; 125; 168; 73;
   59; 45; 235; 37; 73; 250; 163; 170; 57; 167; 197; 167; 80; 17; 54; 251; 198; 103; 74; 245; 165; 18; 101; 126; 176; 223; 175; 78; 179; 97; 127; 47].

Section Nef.
Context {M : Mode}.
(** [f32::powf] *)
Context (powf : f32 -> f32 -> f32).

(** nef.rs:30-39: entry [i] of the sRGB curve *)
Definition snef_point (i : Z) : res Z :=
  let v := fdiv (f32_of i) (flit 4095 1) in
  let r := if f32_le v (flit 4045 100000) then fdiv v (flit 1292 100)
           else powf (fdiv (fadd v (flit 55 1000)) (fadd (flit 1 1) (flit 55 1000))) (flit 24 10) in
  c <- clampbits (f32_to (- 2 ^ 31) (2 ^ 31 - 1) (fmul (fmul r (flit 65535 1)) (flit 4 1))) 16 ;;
  Ok (as_u16 c).
(** nef.rs:23-41 [SNEF_CURVE] *)
Definition snef_curve : res ltable := points <- mapM snef_point (zrange 0 4096) ;; lookup_new points.

(** nef.rs:159-162 [version]: four characters as hexadecimal digits *)
Definition nef_version (data : list Z) : res Z :=
  rfold (fun i version => c <- get data i ;; d <- arith_u 8 (c - 48) ;; u32add (as_u32 (Z.shiftl version 4)) d)
        (zrange 0 4) 0.
(** nef.rs:169-178: the digits of the serial number, up to the first 0 *)
Fixpoint nef_serial (data : list Z) (idx : list Z) (serialno : Z) : res Z :=
  match idx with
  | [] => Ok serialno
  | i :: t =>
      d <- get data i ;;
      if d =? 0 then Ok serialno
      else
        a <- umul serialno 10 ;;
        a <- uadd a (if (48 <=? d) && (d <=? 57) then d - 48 else d mod 10) ;;
        nef_serial data t a
  end.
(** nef.rs:190-199: the 280 bytes of the white balance, deciphered.  State: (cj, ck, bytes);
    [cj] stays below 2^25. *)
Definition nef_decipher (src : list Z) (ci cj : Z) : res (list Z) :=
  '(_, _, buf) <- rfold (fun i '(cj, ck, buf) =>
      let cj := cj + ci * ck in
      b <- get src i ;;
      Ok (cj, ck + 1, buf ++ [Z.lxor b (as_u8 cj)])) (zrange 0 280) (cj, 0x60, []) ;;
  Ok buf.
(** nef.rs:168-204: [get_wb] for the versions 0x204 and 0x205 *)
Definition nef_wb_cipher (tiff : ifd) (levels : entry) (version : Z) : res (vec4 f32) :=
  serial <- fetch_tag tiff T_NefSerial ;;
  serialno <- nef_serial (e_data serial) (zrange 0 (e_count serial)) 0 ;;
  key <- fetch_tag tiff T_NefKey ;; let keydata := e_data key in
  k0 <- get keydata 0 ;; k1 <- get keydata 1 ;; k2 <- get keydata 2 ;; k3 <- get keydata 3 ;;
  let keyno := Z.lxor (Z.lxor (Z.lxor k0 k1) k2) k3 in
  src <- slice_from (e_data levels) (if version =? 0x204 then 284 else 4) ;;
  ci <- get wb_serialmap (serialno &&& 0xff) ;;
  cj <- get wb_keymap (keyno &&& 0xff) ;;
  buf <- nef_decipher src ci cj ;;
  let off := if version =? 0x204 then 6 else 14 in
  r <- BEu16 buf off ;; g <- BEu16 buf (off + 2) ;; b <- BEu16 buf (off + 6) ;;
  Ok (V4 (f32_of r) (f32_of g) (f32_of b) NAN).
(** nef.rs:164-167: three of the levels, read as [u16] *)
Definition force_wb (en : entry) (i j k : Z) : res (vec4 f32) :=
  r <- get_force_u16 en i ;; g <- get_force_u16 en j ;; b <- get_force_u16 en k ;;
  Ok (V4 (f32_of r) (f32_of g) (f32_of b) NAN).
(** nef.rs:155-210 [get_wb] *)
Definition nef_wb (tiff : ifd) : res (vec4 f32) :=
  match find_entry tiff T_NefWB0 with
  | Some levels => r <- get_f32 levels 0 ;; b <- get_f32 levels 1 ;; Ok (V4 r (flit 1 1) b NAN)
  | None =>
      match find_entry tiff T_NefWB1 with
      | Some levels =>
          version <- nef_version (e_data levels) ;;
          if version =? 0x100 then force_wb levels 36 38 37
          else if version =? 0x103 then force_wb levels 10 11 12
          else if (version =? 0x204) || (version =? 0x205) then nef_wb_cipher tiff levels version
          else Err "NEF: Don't know about WB version"
      | None => Err "NEF: Don't know how to fetch WB"
      end
  end.

(** nef.rs:212-228 [create_hufftable] *)
Definition nef_hufftable (num bps : Z) : res hufftable := tree <- get nikon_tree num ;; tree_table tree bps.
(** nef.rs:266-272: the curve of the maker note, given at every [step] *)
Definition nef_points_split (csize step max : Z) (s : bstream) : res (list Z) :=
  '(points, _) <- rfold (fun i '(points, s) =>
      '(v, s) <- bs_get_u16 s ;; points <- upd points (i * step) v ;; Ok (points, s))
    (zrange 0 csize) (zrange 0 65536, s) ;;
  rfold (fun i points =>
    a <- get points (i - i mod step) ;; b <- get points (i - i mod step + step) ;;
    upd points i (as_u16 ((a * (step - i mod step) + b * (i mod step)) / step)))
    (zrange 0 max) points.
(** nef.rs:275-277: the curve given value by value *)
Definition nef_points_plain (csize : Z) (s : bstream) : res (list Z) :=
  '(points, _) <- rfold (fun i '(points, s) =>
      '(v, s) <- bs_get_u16 s ;; points <- upd points i v ;; Ok (points, s))
    (zrange 0 csize) (zrange 0 65536, s) ;;
  Ok points.
(** nef.rs:230-280: what the maker note says: the number of the tree, the first predictors, the
    curve, and the row of the other tree *)
Record nef_meta := mknef { nf_select : Z; nf_up1 : Z * Z; nf_up2 : Z * Z; nf_curve : ltable; nf_split : Z }.
(** nef.rs:235-280 *)
Definition nef_meta_new (data : list Z) (e : endian) (bps : Z) : res nef_meta :=
  '(v0, s) <- bs_get_u8 (bs_new data e) ;;
  '(v1, s) <- bs_get_u8 s ;;
  let s := if (v0 =? 73) || (v1 =? 88) then bs_consume s 2110 else s in
  let select := (if v0 =? 70 then 2 else 0) + (if bps =? 14 then 3 else 0) in
  _ <- nef_hufftable select bps ;;
  '(a, s) <- bs_get_u16 s ;; '(b, s) <- bs_get_u16 s ;;
  '(c, s) <- bs_get_u16 s ;; '(d, s) <- bs_get_u16 s ;;
  one <- shl_u 64 1 bps ;;
  let max := one &&& 0x7fff in
  '(csize, s) <- bs_get_u16 s ;;
  let step := if 1 <? csize then max / (csize - 1) else 0 in
  '(points, max, split) <-
    (if (v0 =? 68) && (v1 =? 32) && (0 <? step) then
       points <- nef_points_split csize step max s ;;
       split <- ru16 e data 562 ;; Ok (points, max, split)
     else if negb (v0 =? 70) && (csize <=? 0x4001) then
       points <- nef_points_plain csize s ;; Ok (points, csize, 0)
     else Ok (zrange 0 65536, max, 0)) ;;
  points <- slice points 0 max ;;
  curve <- lookup_new points ;;
  Ok (mknef select (a, b) (c, d) curve split).
(** nef.rs:306-307: one pair of pixels through the curve *)
Definition nef_put (curve : ltable) (out : list Z) (at_ a b random : Z) : res (list Z * Z) :=
  c <- clampbits a 15 ;; '(v, random) <- dither curve (as_u16 c) random ;; out <- upd out at_ v ;;
  c <- clampbits b 15 ;; '(v, random) <- dither curve (as_u16 c) random ;; out <- upd out (at_ + 1) v ;;
  Ok (out, random).
(** nef.rs:286-310: the rows.  State: (table, predictors, reader, random, pixels) *)
Definition nef_rows (m : nef_meta) (src : list Z) (width height bps : Z) : res (list Z) :=
  t <- nef_hufftable (nf_select m) bps ;;
  '(random, p) <- peek_bits MSB (pump_new src) 24 ;;
  '(_, _, _, _, _, out) <- rfold (fun row '(t, up1, up2, p, random, out) =>
      t <- (if (0 <? nf_split m) && (row =? nf_split m) then nef_hufftable (nf_select m + 1) bps else Ok t) ;;
      u1 <- get up1 (row &&& 1) ;; u2 <- get up2 (row &&& 1) ;;
      '(u1, u2, p) <- pair_diff t u1 u2 p ;;
      up1 <- upd up1 (row &&& 1) u1 ;; up2 <- upd up2 (row &&& 1) u2 ;;
      '(_, _, p, random, out) <- rfold (fun col '(a, b, p, random, out) =>
          '(a, b, p) <- (if 0 <? col then pair_diff t a b p else Ok (a, b, p)) ;;
          '(out, random) <- nef_put (nf_curve m) out (row * width + col) a b random ;;
          Ok (a, b, p, random, out)) (zrange_step 0 width 2) (u1, u2, p, random, out) ;;
      Ok (t, up1, up2, p, random, out))
    (zrange 0 height)
    (t, [fst (nf_up1 m); snd (nf_up1 m)], [fst (nf_up2 m); snd (nf_up2 m)], p, random, zeros (width * height)) ;;
  Ok out.
(** nef.rs:230-313 [decode_compressed].  The first table is built before the
    predictors are read, here once more for the rows. *)
Definition nef_decompress (tiff : ifd) (src : list Z) (width height bps : Z) : res (list Z) :=
  metaifd <- fetch_ifd tiff T_NefMeta1 ;;
  meta <- (match find_entry metaifd T_NefMeta2 with Some m => Ok m | None => fetch_tag metaifd T_NefMeta1 end) ;;
  m <- nef_meta_new (e_data meta) (i_endian metaifd) bps ;;
  nef_rows m src width height bps.

(** nef.rs:339-345: one of the two pixels of a group *)
Definition snef_pixel (curve : ltable) (inv_r inv_b : Z) (y cb cr : f32) (random : Z) : res (list Z * Z) :=
  let i32_of (x : f32) := f32_to (- 2 ^ 31) (2 ^ 31 - 1) x in
  c <- clampbits (i32_of (fadd y (fmul (flit 1370705 1000000) cr))) 12 ;;
  '(r, random) <- dither curve (as_u16 c) random ;;
  c <- clampbits (i32_of (fsub (fsub y (fmul (flit 337633 1000000) cb)) (fmul (flit 698001 1000000) cr))) 12 ;;
  '(g, random) <- dither curve (as_u16 c) random ;;
  c <- clampbits (i32_of (fadd y (fmul (flit 1732446 1000000) cb))) 12 ;;
  '(b, random) <- dither curve (as_u16 c) random ;;
  m <- i32mul inv_r r ;; m <- i32add m 512 ;; r <- clampbits (m >>> 10) 15 ;;
  m <- i32mul inv_b b ;; m <- i32add m 512 ;; b <- clampbits (m >>> 10) 15 ;;
  Ok ([as_u16 r; g; as_u16 b], random).
(** nef.rs:326-354: two pixels; a group of fewer than six values panics *)
Definition snef_group (curve : ltable) (inv_r inv_b : Z) (oi : list Z * list Z) (st : Z * list Z) : res (Z * list Z) :=
  let '(o, i) := oi in
  let '(random, done) := st in
  g1 <- get i 0 ;; g2 <- get i 1 ;; g3 <- get i 2 ;; g4 <- get i 3 ;; g5 <- get i 4 ;; g6 <- get i 5 ;;
  let y1 := f32_of (Z.lor g1 (Z.shiftl (g2 &&& 15) 8)) in
  let y2 := f32_of (Z.lor (g2 >>> 4) (Z.shiftl g3 4)) in
  let cb := fsub (f32_of (Z.lor g4 (Z.shiftl (g5 &&& 15) 8))) (flit 2048 1) in
  let cr := fsub (f32_of (Z.lor (g5 >>> 4) (Z.shiftl g6 4))) (flit 2048 1) in
  '(a, random) <- snef_pixel curve inv_r inv_b y1 cb cr random ;;
  '(b, random) <- snef_pixel curve inv_r inv_b y2 cb cr random ;;
  o <- rfold (fun '(i, v) o => upd o i v) (enumerate (a ++ b)) o ;;
  Ok (random, done ++ o).
(** nef.rs:315-356 [decode_snef_compressed] *)
Definition snef_decompress (tiff : ifd) (src : list Z) (width height : Z) : res (list Z) :=
  coeffs <- nef_wb tiff ;;
  let inv_r := f32_to (- 2 ^ 31) (2 ^ 31 - 1) (fdiv (flit 1024 1) (e0 coeffs)) in
  let inv_b := f32_to (- 2 ^ 31) (2 ^ 31 - 1) (fdiv (flit 1024 1) (e2 coeffs)) in
  curve <- snef_curve ;;
  decode_threaded (width * 3) height (fun out row =>
    inb <- slice_from src (row * width * 3) ;;
    random <- BEu32 inb 0 ;;
    '(_, done) <- rfold (snef_group curve inv_r inv_b) (combine (chunks 6 out) (chunks 6 inb)) (random, []) ;;
    Ok (done ++ skipn (length done) out)).

(** nef.rs:108: [format!("{}bit", bps)] *)
Definition nef_mode (bps : Z) : string :=
  String.append (NilZero.string_of_uint (N.to_uint (Z.to_N bps))) "bit".
(** nef.rs:100-151 [image] *)
Definition nef_image (l : loader) (buf : list Z) (tiff : ifd) : res (rawimage f32) :=
  raw <- fetch_ifd tiff T_CFAPattern ;;
  width <- tag_usize raw T_ImageWidth ;;
  height <- tag_usize raw T_ImageLength ;;
  bps <- tag_usize raw T_BitsPerSample ;;
  compression <- tag_usize raw T_Compression ;;
  camera <- check_supported_with_mode l tiff (nef_mode bps) ;;
  offset <- tag_usize raw T_StripOffsets ;;
  size <- tag_usize raw T_StripByteCounts ;;
  src <- slice_from buf offset ;;
  '(width, cpp, image) <-
    (if String.eqb (c_model camera) "NIKON D100" then
       image <- decode_12be_wcontrol src 3040 height ;; Ok (3040, 1, image)
     else
     n <- (if compression =? 1 then Ok 0 else n <- umul width height ;; umul n bps) ;;
     if (compression =? 1) || (size =? n / 8) then
       image <- (if bps =? 14 then
                   if little (i_endian tiff) then decode_14le_unpacked src width height else decode_14be_unpacked src width height
                 else if bps =? 12 then
                   if little (i_endian tiff) then decode_12le src width height else decode_12be src width height
                 else Err "Don't know uncompressed bps") ;;
       Ok (width, 1, image)
     else
     n <- (n <- umul width height ;; umul n 3) ;;
     if size =? n then
       image <- snef_decompress tiff src width height ;; Ok (width, 3, image)
     else if compression =? 34713 then
       image <- nef_decompress tiff src width height bps ;; Ok (width, 1, image)
     else Err "NEF: Don't know compression") ;;
  wb <- nef_wb tiff ;;
  img <- ok_image camera width height wb image ;;
  Ok (if cpp =? 3 then img_set_whites (all4 65535) (img_set_blacks (all4 0) (img_set_cpp 3 img)) else img).
End Nef.

Section Srw.
Context {M : Mode}.

(** ** Samsung, first compression *)
(** srw.rs:80-100: the new length of one of the four groups *)
Definition srw1_len (op len : Z) (p : pump) : res (Z * pump) :=
  if op =? 3 then get_bits MSB32 p 4
  else if op =? 2 then l <- u32sub len 1 ;; Ok (l, p)
  else if op =? 1 then l <- u32add len 1 ;; Ok (l, p)
  else Ok (len, p).
(** srw.rs:103-127: one pixel; [up] is the pixel above, [left] the one to the
    left of the group *)
Definition srw1_pixel (width img col c : Z) (dir : bool) (l up lft : Z) (st : pump * list Z) : res (pump * list Z) :=
  let '(p, out) := st in
  '(adj, p) <- get_ibits_sextended MSB32 p l ;;
  predictor <- (if dir then get out up else if col =? 0 then Ok 128 else get out lft) ;;
  if col + c <? width then
    v <- i32add predictor adj ;; out <- upd out (img + col + c) (as_u16 v) ;; Ok (p, out)
  else Ok (p, out).
(** srw.rs:89-128: sixteen pixels.  State: (reader, lengths, pixels) *)
Definition srw1_group (width row col : Z) (st : pump * list Z * list Z) : res (pump * list Z * list Z) :=
  let '(p, lens, out) := st in
  let img := width * row in
  let img_up := width * (Z.max 1 row - 1) in
  let img_up2 := width * (Z.max 2 row - 2) in
  '(d, p) <- get_bits MSB32 p 1 ;; let dir := d =? 1 in
  '(o0, p) <- get_bits MSB32 p 2 ;; '(o1, p) <- get_bits MSB32 p 2 ;;
  '(o2, p) <- get_bits MSB32 p 2 ;; '(o3, p) <- get_bits MSB32 p 2 ;;
  '(p, lens) <- rfold (fun '(i, op) '(p, lens) =>
      l <- get lens i ;; '(l, p) <- srw1_len op l p ;; lens <- upd lens i l ;; Ok (p, lens))
    (enumerate [o0; o1; o2; o3]) (p, lens) ;;
  '(p, out) <- rfold (fun c '(p, out) =>
      l <- get lens (c >>> 3) ;;
      srw1_pixel width img col c dir l (img_up + col + c) (img + col - 2) (p, out))
    (zrange_step 0 16 2) (p, out) ;;
  '(p, out) <- rfold (fun c '(p, out) =>
      l <- get lens (Z.lor 2 (c >>> 3)) ;;
      srw1_pixel width img col c dir l (img_up2 + col + c) (img + col - 1) (p, out))
    (zrange_step 1 16 2) (p, out) ;;
  Ok (p, lens, out).
Definition swap (out : list Z) (i j : Z) : res (list Z) :=
  a <- get out i ;; b <- get out j ;; out <- upd out i b ;; upd out j a.
(** srw.rs:76-141 [decode_srw1] *)
Definition decode_srw1 (buf loffsets : list Z) (width height : Z) : res (list Z) :=
  out <- rfold (fun row out =>
      loffset <- LEu32 loffsets (row * 4) ;;
      src <- slice_from buf loffset ;;
      '(_, _, out) <- rfold (srw1_group width row) (zrange_step 0 width 16)
                        (pump_new src, repeat (if row <? 2 then 7 else 4) 4, out) ;;
      Ok out)
    (zrange 0 height) (zeros (width * height)) ;;
  rfold (fun row => rfold (fun col out => swap out (row * width + col + 1) ((row + 1) * width + col))
                          (zrange_step 0 width 2))
        (zrange_step 0 height 2) out.

(** ** Second compression *)
(** srw.rs:152-153 *)
Definition srw2_tab : list (Z * Z) :=
  [(3, 4); (3, 7); (2, 6); (2, 5); (4, 3); (6, 0); (7, 9);
   (8, 10); (9, 11); (10, 12); (10, 13); (5, 1); (4, 8); (4, 2)].
(** srw.rs:162-172: 2^(10-n) entries for each code of n bits, in all 1024 *)
Definition srw2_tbl : list (Z * Z) :=
  flat_map (fun e => repeat e (Z.to_nat (1024 >>> fst e))) srw2_tab.
(** srw.rs:193-206 [srw2_diff] *)
Definition srw2_diff (p : pump) : res (Z * pump) :=
  '(c, p) <- peek_bits MSB p 10 ;;
  '(n, len) <- get srw2_tbl c ;;
  p <- consume_bits MSB p n ;;
  '(v, p) <- get_bits MSB p len ;;
  Ok (if negb (len =? 0) && (v &&& 2 ^ (len - 1) =? 0) then v - (2 ^ len - 1) else v, p).
(** srw.rs:178-187: one pixel.  State: (vpred, hpred, reader, pixels) *)
Definition srw2_pixel (width row col : Z) (st : list Z * list Z * pump * list Z) : res (list Z * list Z * pump * list Z) :=
  let '(vpred, hpred, p, out) := st in
  '(diff, p) <- srw2_diff p ;;
  '(vpred, hpred) <-
    (if col <? 2 then
       v <- get vpred ((row &&& 1) * 2 + col) ;; v <- i32add v diff ;;
       vpred <- upd vpred ((row &&& 1) * 2 + col) v ;; hpred <- upd hpred col v ;; Ok (vpred, hpred)
     else
       h <- get hpred (col &&& 1) ;; h <- i32add h diff ;; hpred <- upd hpred (col &&& 1) h ;; Ok (vpred, hpred)) ;;
  h <- get hpred (col &&& 1) ;;
  out <- upd out (row * width + col) (as_u16 h) ;;
  Ok (vpred, hpred, p, out).
(** srw.rs:143-191 [decode_srw2]; [vpred] is the two rows of two one after the
    other *)
Definition decode_srw2 (buf : list Z) (width height : Z) : res (list Z) :=
  '(_, _, _, out) <- rfold (fun row => rfold (srw2_pixel width row) (zrange 0 width)) (zrange 0 height)
                       ([0; 0; 0; 0], [0; 0], pump_new buf, zeros (width * height)) ;;
  Ok out.

(** ** Third compression *)
(** srw.rs:221-242: bit depth, flags, first value, and the reader after them *)
Definition srw3_header (p : pump) : res (Z * Z * Z * pump) :=
  '(_, p) <- get_bits MSB32 p 16 ;; '(_, p) <- get_bits MSB32 p 4 ;;
  '(b, p) <- get_bits MSB32 p 4 ;;
  '(_, p) <- get_bits MSB32 p 4 ;; '(_, p) <- get_bits MSB32 p 4 ;;
  '(_, p) <- get_bits MSB32 p 16 ;; '(_, p) <- get_bits MSB32 p 16 ;; '(_, p) <- get_bits MSB32 p 16 ;;
  '(_, p) <- get_bits MSB32 p 4 ;;
  '(optflags, p) <- get_bits MSB32 p 4 ;;
  '(_, p) <- get_bits MSB32 p 8 ;; '(_, p) <- get_bits MSB32 p 8 ;; '(_, p) <- get_bits MSB32 p 8 ;;
  '(_, p) <- get_bits MSB32 p 2 ;;
  '(init_val, p) <- get_bits MSB32 p 14 ;;
  Ok (b + 1, optflags, as_u16 init_val, p).
(** srw.rs:276-286 *)
Definition srw3_scale (optflags col scale : Z) (p : pump) : res (Z * pump) :=
  if (optflags &&& 4 =? 0) && (col &&& 63 =? 0) then
    '(i, p) <- get_bits MSB32 p 2 ;;
    if i <? 3 then v <- get [0; -2; 2] i ;; s <- i32add scale v ;; Ok (s, p)
    else '(v, p) <- get_bits MSB32 p 12 ;; Ok (as_i32 v, p)
  else Ok (0, p).
(** srw.rs:289-297 *)
Definition srw3_motion (optflags row motion : Z) (p : pump) : res (Z * pump) :=
  '(motion, p) <-
    (if negb (optflags &&& 2 =? 0) then '(b, p) <- get_bits MSB32 p 1 ;; Ok (if negb (b =? 0) then 3 else 7, p)
     else
       '(b, p) <- get_bits MSB32 p 1 ;;
       if b =? 0 then get_bits MSB32 p 3 else Ok (motion, p)) ;;
  if (row <? 2) && negb (motion =? 7) then Panic else Ok (motion, p).
(** srw.rs:299-333: the reference pixels *)
Definition srw3_reference (width row col motion init_val : Z) (out : list Z) : res (list Z) :=
  let img := width * row in
  let img_up := width * (Z.max 1 row - 1) in
  let img_up2 := width * (Z.max 2 row - 2) in
  if motion =? 7 then
    rfold (fun i out =>
      v <- (if col =? 0 then Ok init_val else get out (img + col + i - 2)) ;;
      upd out (img + col + i) v) (zrange 0 16) out
  else if row <? 2 then Panic
  else
    slide <- get [-4; -2; -2; 0; 0; 2; 4] motion ;;
    average <- get [0; 0; 1; 0; 1; 0; 0] motion ;;
    rfold (fun i out =>
      let refpixel := if negb ((row + i) &&& 1 =? 0) then img_up2 + col + i + slide
                      else if negb (i mod 2 =? 0) then img_up + col + i - 1 + slide
                      else img_up + col + i + 1 + slide in
      v <- (if negb (average =? 0) then
              a <- get out refpixel ;; b <- get out (refpixel + 2) ;;
              s <- u16add a b ;; s <- u16add s 1 ;; Ok (s >>> 1)
            else get out refpixel) ;;
      upd out (img + col + i) v) (zrange 0 16) out.
(** srw.rs:339-354: how many bits the differences of a quarter have.  State:
    (reader, modes of the three colours, lengths) *)
Definition srw3_bits (row bit_depth : Z) (iflag : Z * Z) (st : pump * list (Z * Z) * list Z) : res (pump * list (Z * Z) * list Z) :=
  let '(i, flag) := iflag in
  let '(p, modes, bits) := st in
  let colornum := if negb (row mod 2 =? 0) then i >>> 1 else ((i >>> 1) + 2) mod 3 in
  '(m0, m1) <- get modes colornum ;;
  '(b, p) <- (if flag =? 0 then Ok (m0, p)
              else if flag =? 1 then b <- u32add m0 1 ;; Ok (b, p)
              else if flag =? 2 then b <- u32sub m0 1 ;; Ok (b, p)
              else get_bits MSB32 p 4) ;;
  modes <- upd modes colornum (m1, b) ;;
  bits <- upd bits i b ;;
  if bit_depth + 1 <? b then Panic else Ok (p, modes, bits).
(** srw.rs:358-370: the sixteen differences *)
Definition srw3_diffs (width row col bit_depth scale : Z) (bits : list Z) (st : pump * list Z) : res (pump * list Z) :=
  rfold (fun i '(p, out) =>
    len <- get bits (i >>> 2) ;;
    '(diff, p) <- get_ibits_sextended MSB32 p len ;;
    s2 <- i32mul scale 2 ;; s2 <- i32add s2 1 ;;
    diff <- i32mul diff s2 ;; diff <- i32add diff scale ;;
    let pos := (if negb (row mod 2 =? 0) then Z.shiftl (i &&& 7) 1 + 1 - (i >>> 3) else Z.shiftl (i &&& 7) 1 + (i >>> 3))
               + width * row + col in
    o <- get out pos ;; v <- i32add o diff ;; v <- clampbits v bit_depth ;;
    out <- upd out pos (as_u16 v) ;;
    Ok (p, out)) (zrange 0 16) st.
(** srw.rs:274-371: sixteen pixels.  State: (reader, motion, scale, modes, pixels) *)
Definition srw3_group (width row bit_depth optflags init_val col : Z) (st : pump * Z * Z * list (Z * Z) * list Z)
  : res (pump * Z * Z * list (Z * Z) * list Z) :=
  let '(p, motion, scale, modes, out) := st in
  '(scale, p) <- srw3_scale optflags col scale p ;;
  '(motion, p) <- srw3_motion optflags row motion p ;;
  out <- srw3_reference width row col motion init_val out ;;
  '(skip, p) <- (if negb (optflags &&& 1 =? 0) then Ok (0, p) else get_bits MSB32 p 1) ;;
  '(p, modes, bits) <-
    (if skip =? 0 then
       '(f0, p) <- get_bits MSB32 p 2 ;; '(f1, p) <- get_bits MSB32 p 2 ;;
       '(f2, p) <- get_bits MSB32 p 2 ;; '(f3, p) <- get_bits MSB32 p 2 ;;
       rfold (srw3_bits row bit_depth) (enumerate [f0; f1; f2; f3]) (p, modes, zeros 4)
     else Ok (p, modes, zeros 4)) ;;
  '(p, out) <- srw3_diffs width row col bit_depth scale bits (p, out) ;;
  Ok (p, motion, scale, modes, out).
(** srw.rs:208-375 [decode_srw3] *)
Definition decode_srw3 (buf : list Z) (width height : Z) : res (list Z) :=
  '(bit_depth, optflags, init_val, p) <- srw3_header (pump_new buf) ;;
  '(_, _, out) <- rfold (fun row '(line_offset, p, out) =>
      pos <- msb32_get_pos p ;;
      let line_offset := line_offset + pos in
      let line_offset := if negb (line_offset &&& 15 =? 0) then line_offset + (16 - (line_offset &&& 15)) else line_offset in
      src <- slice_from buf line_offset ;;
      let init := if row <? 2 then 7 else 4 in
      '(p, _, _, _, out) <- rfold (srw3_group width row bit_depth optflags init_val) (zrange_step 0 width 16)
                              (pump_new src, 7, 0, repeat (init, init) 3, out) ;;
      Ok (line_offset, p, out))
    (zrange 0 height) (0, p, zeros (width * height)) ;;
  Ok out.

(** srw.rs:377-390 [get_wb] *)
Definition srw_wb (buf : list Z) (tiff : ifd) : res (vec4 f32) :=
  levels <- fetch_tag tiff T_SrwRGGBLevels ;;
  blacks <- fetch_tag tiff T_SrwRGGBBlacks ;;
  if negb (e_count levels =? 4) || negb (e_count blacks =? 4) then Err "SRW: RGGB Levels and Blacks don't have 4 elements"
  else
    nl <- copy_offset_from_parent levels buf ;; nb <- copy_offset_from_parent blacks buf ;;
    let level i := a <- get_u32 nl i ;; b <- get_u32 nb i ;; Ok (fsub (f32_of a) (f32_of b)) in
    r <- level 0 ;; g <- level 1 ;; b <- level 3 ;; Ok (V4 r g b NAN).
(** srw.rs:26-72 [image] *)
Definition srw_image (l : loader) (buf : list Z) (tiff : ifd) : res (rawimage f32) :=
  camera <- check_supported l tiff ;;
  raw <- fetch_ifd tiff T_StripOffsets ;;
  width <- tag_usize raw T_ImageWidth ;;
  height <- tag_usize raw T_ImageLength ;;
  offset <- tag_usize raw T_StripOffsets ;;
  compression <- tag_usize raw T_Compression ;;
  bits <- tag_usize raw T_BitsPerSample ;;
  src <- slice_from buf offset ;;
  image <-
    (if compression =? 32769 then
       if bits =? 12 then decode_12le_unpacked src width height
       else if bits =? 14 then decode_14le_unpacked src width height
       else Err "SRW: Don't know how to handle bps"
     else if compression =? 32770 then
       match find_entry raw T_SrwSensorAreas with
       | None =>
           if bits =? 12 then
             if find_hint camera "little_endian" then decode_12le src width height else decode_12be src width height
           else if bits =? 14 then decode_14le_unpacked src width height
           else Err "SRW: Don't know how to handle bps"
       | Some x => coffset <- get_u32 x 0 ;; loffsets <- slice_from buf coffset ;; decode_srw1 src loffsets width height
       end
     else if compression =? 32772 then decode_srw2 src width height
     else if compression =? 32773 then decode_srw3 src width height
     else Err "SRW: Don't know how to handle compression") ;;
  wb <- srw_wb buf tiff ;;
  ok_image camera width height wb image.
End Srw.
