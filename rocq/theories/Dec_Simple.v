(** Models of the decoders of formats without a compression of their own:
    src/decoders/{ari,dcs,erf,mef,nkd,tfr,kdc,nrw}.rs, and of dcr.rs. *)
From Coq Require Import String ZArith List Bool.
From Verif Require Import Base Num F32 Bytes Pumps Lookup Packed Ljpeg Tiff Image Camera Decoder.
Import ListNotations.
Local Open Scope Z_scope.

Section Simple.
Context {M : Mode}.

(** [data.iter().find(|ifd| ifd.find_entry(ImageWidth).unwrap().get_u32(0) > 1000).unwrap()],
    dcs.rs:27-29, nrw.rs:27-29 *)
Fixpoint find_wide (data : list ifd) : res ifd :=
  match data with
  | [] => Panic
  | i :: t => en <- unwrap_entry i T_ImageWidth ;; w <- get_u32 en 0 ;; if 1000 <? w then Ok i else find_wide t
  end.

(** ari.rs:25-42 *)
Definition ari_wb (buf : list Z) : res (vec4 f32) :=
  r <- LEf32 buf 100 ;; g <- LEf32 buf 104 ;; b <- LEf32 buf 108 ;; Ok (V4 r g b NAN).
Definition ari_image (l : loader) (buf : list Z) : res (rawimage f32) :=
  offset <- LEu32 buf 8 ;; width <- LEu32 buf 20 ;; height <- LEu32 buf 24 ;;
  name <- slice_from buf 668 ;;
  camera <- check_supported_with_everything l "ARRI" (first_string name) "" ;;
  src <- slice_from buf offset ;;
  image <- decode_12be_msb32 src width height ;;
  wb <- ari_wb buf ;;
  ok_image camera width height wb image.

(** dcs.rs:24-45 *)
Definition dcs_image (l : loader) (buf : list Z) (tiff : ifd) : res (rawimage f32) :=
  camera <- check_supported l tiff ;;
  raw <- find_wide (find_ifds_with_tag tiff T_StripOffsets) ;;
  width <- tag_usize raw T_ImageWidth ;;
  height <- tag_usize raw T_ImageLength ;;
  offset <- tag_usize raw T_StripOffsets ;;
  src <- slice_from buf offset ;;
  linearization <- fetch_tag tiff T_GrayResponse ;;
  t <- mapM (fun i => v <- get_u32 linearization i ;; Ok (as_u16 v)) (zrange 0 256) ;;
  table <- lookup_new t ;;
  image <- decode_8bit_wtable src table width height ;;
  ok_image camera width height nans image.

(** erf.rs:38-47 *)
Definition erf_wb (tiff : ifd) : res (vec4 f32) :=
  levels <- fetch_tag tiff T_EpsonWB ;;
  if negb (e_count levels =? 256) then Err "ERF: Levels count is off"
  else
    r <- BEu16 (e_data levels) 48 ;; b <- BEu16 (e_data levels) 50 ;;
    Ok (V4 (fdiv (fmul (fmul (f32_of r) (flit 508 1)) (flit 1078 1000)) (flit 65536 1)) (flit 1 1)
           (fdiv (fmul (fmul (f32_of b) (flit 382 1)) (flit 1173 1000)) (flit 65536 1)) NAN).
(** erf.rs:24-34 *)
Definition erf_image (l : loader) (buf : list Z) (tiff : ifd) : res (rawimage f32) :=
  camera <- check_supported l tiff ;;
  raw <- fetch_ifd tiff T_CFAPattern ;;
  width <- tag_usize raw T_ImageWidth ;;
  height <- tag_usize raw T_ImageLength ;;
  offset <- tag_usize raw T_StripOffsets ;;
  src <- slice_from buf offset ;;
  image <- decode_12be_wcontrol src width height ;;
  wb <- erf_wb tiff ;;
  ok_image camera width height wb image.

(** mef.rs:24-34 *)
Definition mef_image (l : loader) (buf : list Z) (tiff : ifd) : res (rawimage f32) :=
  camera <- check_supported l tiff ;;
  raw <- fetch_ifd tiff T_CFAPattern ;;
  width <- tag_usize raw T_ImageWidth ;;
  height <- tag_usize raw T_ImageLength ;;
  offset <- tag_usize raw T_StripOffsets ;;
  src <- slice_from buf offset ;;
  image <- decode_12be src width height ;;
  ok_image camera width height nans image.

(** nkd.rs:23-40; dividing by 0 panics in every build *)
Definition nkd_image (buf : list Z) (camera : camera) : res (rawimage f32) :=
  let width := c_raw_width camera in
  let height := c_raw_height camera in
  size8 <- umul (c_filesize camera) 8 ;;
  if (width =? 0) || (height =? 0) then Panic
  else
    let bits := size8 / width / height in
    image <- (if find_hint camera "12le_16bitaligned" then decode_12le_16bitaligned buf width height
              else if bits =? 10 then decode_10le_lsb16 buf width height
              else if bits =? 12 then decode_12be_msb16 buf width height
              else Err "Naked: Don't know about this bps") ;;
    ok_image camera width height nans image.

(** tfr.rs:38-41; also the white balance of other formats: [1.0/get_f32(i)] *)
Definition inverse_wb (levels : entry) : res (vec4 f32) :=
  r <- get_f32 levels 0 ;; g <- get_f32 levels 1 ;; b <- get_f32 levels 2 ;;
  Ok (V4 (fdiv (flit 1 1) r) (fdiv (flit 1 1) g) (fdiv (flit 1 1) b) NAN).
(** tfr.rs:24-48 *)
Definition tfr_image (l : loader) (buf : list Z) (tiff : ifd) : res (rawimage f32) :=
  camera <- check_supported l tiff ;;
  raw <- fetch_ifd tiff T_WhiteLevel ;;
  width <- tag_usize raw T_ImageWidth ;;
  height <- tag_usize raw T_ImageLength ;;
  offset <- tag_usize raw T_StripOffsets ;;
  src <- slice_from buf offset ;;
  lj <- ljpeg_new_full src true false ;;
  image <- ljpeg_decode lj (zeros (width * height)) 0 width width height ;;
  levels <- fetch_tag tiff T_AsShotNeutral ;; wb <- inverse_wb levels ;;
  ok_image camera width height wb image.

(** kdc.rs:46-66 *)
Definition kdc_wb (tiff : ifd) : res (vec4 f32) :=
  match find_entry tiff T_KdcWB with
  | Some levels =>
      if negb (e_count levels =? 3) then Err "KDC: Levels count is off"
      else r <- get_f32 levels 0 ;; g <- get_f32 levels 1 ;; b <- get_f32 levels 2 ;; Ok (V4 r g b NAN)
  | None =>
      levels <- fetch_tag tiff T_KodakWB ;;
      if negb (e_count levels =? 734) && negb (e_count levels =? 1502) then Err "KDC: Levels count is off"
      else
        r <- BEu16 (e_data levels) 148 ;; b <- BEu16 (e_data levels) 150 ;;
        Ok (V4 (fdiv (f32_of r) (flit 256 1)) (flit 1 1) (fdiv (f32_of b) (flit 256 1)) NAN)
  end.
(** kdc.rs:24-42 *)
Definition kdc_image (l : loader) (buf : list Z) (tiff : ifd) : res (rawimage f32) :=
  camera <- check_supported l tiff ;;
  w <- tag_usize tiff T_KdcWidth ;; let width := w + 80 in
  h <- tag_usize tiff T_KdcLength ;; let height := h + 70 in
  offset <- fetch_tag tiff T_KdcOffset ;;
  if e_count offset <? 13 then Panic
  else
    o4 <- get_u32 offset 4 ;; o12 <- get_u32 offset 12 ;;
    let off := o4 + o12 in
    let off := if find_hint camera "easyshare_offset_hack" then (if off <? 0x15000 then 0x15000 else 0x17000) else off in
    src <- slice_from buf off ;;
    image <- decode_12be src width height ;;
    wb <- kdc_wb tiff ;;
    ok_image camera width height wb image.

(** nrw.rs:49-73 *)
Definition nrw_wb (tiff : ifd) (camera : camera) : res (vec4 f32) :=
  if find_hint camera "nowb" then Ok nans
  else match find_entry tiff T_NefWB0 with
  | Some levels => r <- get_f32 levels 0 ;; b <- get_f32 levels 1 ;; Ok (V4 r (flit 1 1) b NAN)
  | None =>
      match find_entry tiff T_NrwWB with
      | Some levels =>
          let data := e_data levels in
          nrw <- at_is data 0 [78; 82; 87] ;;
          if nrw : bool then
            v <- at_is data 4 [48; 49; 48; 48] ;;
            let offset := if v : bool then 1556 else 56 in
            r <- LEu32 data offset ;; g1 <- LEu32 data (offset + 4) ;; g2 <- LEu32 data (offset + 8) ;;
            g <- u32add g1 g2 ;; b <- LEu32 data (offset + 12) ;;
            Ok (V4 (f32_of (as_u32 (Z.shiftl r 2))) (f32_of g) (f32_of (as_u32 (Z.shiftl b 2))) NAN)
          else r <- BEu16 data 1248 ;; b <- BEu16 data 1250 ;; Ok (V4 (f32_of r) (flit 256 1) (f32_of b) NAN)
      | None => Err "NRW: Don't know how to fetch WB"
      end
  end.
(** nrw.rs:24-45 *)
Definition nrw_image (l : loader) (buf : list Z) (tiff : ifd) : res (rawimage f32) :=
  camera <- check_supported l tiff ;;
  raw <- find_wide (find_ifds_with_tag tiff T_CFAPattern) ;;
  width <- tag_usize raw T_ImageWidth ;;
  height <- tag_usize raw T_ImageLength ;;
  offset <- tag_usize raw T_StripOffsets ;;
  src <- slice_from buf offset ;;
  image <- (if find_hint camera "coolpixsplit" then decode_12be_interlaced_unaligned src width height
            else if find_hint camera "msb32" then decode_12be_msb32 src width height
            else decode_12be src width height) ;;
  wb <- nrw_wb tiff camera ;;
  ok_image camera width height wb image.

(** dcr.rs:50-61 *)
Definition dcr_wb (tiff : ifd) : res (vec4 f32) :=
  dcrwb <- fetch_tag tiff T_DcrWB ;;
  if 46 <=? e_count dcrwb then
    let levels := e_data dcrwb in
    r <- BEu16 levels 40 ;; g <- BEu16 levels 42 ;; b <- BEu16 levels 44 ;;
    Ok (V4 (fdiv (flit 2048 1) (f32_of r)) (fdiv (flit 2048 1) (f32_of g)) (fdiv (flit 2048 1) (f32_of b)) NAN)
  else Ok nans.
(** dcr.rs:88-92: the lengths of the differences, two in a byte *)
Definition seg_lens (size : Z) (s : bstream) : res (list Z * bstream) :=
  rfold (fun i '(lens, s) =>
    lo <- bs_peek_u8 s ;; lens <- upd lens i (lo &&& 15) ;;
    '(hi, s) <- bs_get_u8 s ;; lens <- upd lens (i + 1) (hi >>> 4) ;;
    Ok (lens, s)) (zrange_step 0 size 2) (zeros 256, s).
(** dcr.rs:93-98 *)
Definition seg_start (size : Z) (s : bstream) : res (Z * Z * bstream) :=
  if size &&& 7 =? 4 then
    '(a, s) <- bs_get_u8 s ;; '(b, s) <- bs_get_u8 s ;; Ok (Z.lor (Z.shiftl a 8) b, 16, s)
  else Ok (0, 0, s).
(** dcr.rs:102-107: four more bytes *)
Definition seg_refill (bits : Z) (bitbuf : Z) (s : bstream) : res (Z * bstream) :=
  rfold (fun j '(bitbuf, s) =>
    '(a, s) <- bs_get_u8 s ;; v <- shl_u 64 a (bits + Z.lxor j 8) ;; b <- uadd bitbuf v ;; Ok (b, s))
    (zrange_step 0 32 8) (bitbuf, s).
(** dcr.rs:109-115: the value with its sign *)
Definition seg_value (v len : Z) : res Z :=
  if negb (len =? 0) && (v &&& Z.shiftl 1 (len - 1) =? 0) then i32sub v (Z.shiftl 1 len - 1) else Ok v.
(** dcr.rs:85-118 [decode_segment] *)
Definition decode_segment (size : Z) (s : bstream) : res (list Z * bstream) :=
  '(lens, s) <- seg_lens size s ;;
  '(bitbuf, bits, s) <- seg_start size s ;;
  '(out, _, _, s) <- rfold (fun i '(out, bitbuf, bits, s) =>
    len <- get lens i ;;
    '(bitbuf, bits, s) <- (if bits <? len then '(b, s) <- seg_refill bits bitbuf s ;; Ok (b, bits + 32, s)
                           else Ok (bitbuf, bits, s)) ;;
    sh <- usub 16 len ;; mask <- shr_u 64 0xffff sh ;;
    v <- seg_value (bitbuf &&& mask) len ;;
    out <- upd out i v ;;
    bitbuf <- shr_u 64 bitbuf len ;;
    bits <- usub bits len ;;
    Ok (out, bitbuf, bits, s)) (zrange 0 size) (zeros size, bitbuf, bits, s) ;;
  Ok (out, s).
(** dcr.rs:71-79: the pixels of a segment, from column [col] of the picture *)
Definition dcr_pixels (curve : ltable) (at_ : Z) (vals : list Z) (random : Z) (out : list Z) : res (Z * list Z) :=
  '(_, random, out) <- rfold (fun '(i, val) '(pred, random, out) =>
    p <- get pred (i &&& 1) ;; p <- i32add p val ;; pred <- upd pred (i &&& 1) p ;;
    '(v, random) <- dither curve (as_u16 p) random ;;
    out <- upd out (at_ + i) v ;;
    Ok (pred, random, out)) (Threads.enumerate vals) ([0; 0], random, out) ;;
  Ok (random, out).
(** dcr.rs:63-83 [decode_kodak65000] *)
Definition decode_kodak65000 (buf : list Z) (curve : ltable) (width height : Z) : res (list Z) :=
  '(_, _, out) <- rfold (fun row => rfold (fun col '(s, random, out) =>
    '(vals, s) <- decode_segment (Z.min 256 (width - col)) s ;;
    '(random, out) <- dcr_pixels curve (row * width + col) vals random out ;;
    Ok (s, random, out)) (zrange_step 0 width 256)) (zrange 0 height)
    (bs_new buf LITTLE_ENDIAN, 0, zeros (width * height)) ;;
  Ok out.
(** dcr.rs:26-46 *)
Definition dcr_image (l : loader) (buf : list Z) (tiff : ifd) : res (rawimage f32) :=
  camera <- check_supported l tiff ;;
  raw <- fetch_ifd tiff T_CFAPattern ;;
  width <- tag_usize raw T_ImageWidth ;;
  height <- tag_usize raw T_ImageLength ;;
  offset <- tag_usize raw T_StripOffsets ;;
  src <- slice_from buf offset ;;
  linearization <- fetch_tag tiff T_DcrLinearization ;;
  points <- mapM (fun i => v <- get_u32 linearization i ;; Ok (as_u16 v)) (zrange 0 (e_count linearization)) ;;
  curve <- lookup_new points ;;
  image <- decode_kodak65000 src curve width height ;;
  wb <- dcr_wb tiff ;;
  ok_image camera width height wb image.
End Simple.
