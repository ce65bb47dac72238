(** Models of src/decoders/dng.rs, cr2.rs, raf.rs and mos.rs: the formats built
    on lossless JPEG, and Fuji. *)
From Coq Require Import String Ascii ZArith List Bool.
From Verif Require Import Base Num F32 Bytes Cfa Threads Lookup Packed Transform Ljpeg Mos Raf Cr2 Tiff Ciff Image Camera Decoder.
Import ListNotations.
Local Open Scope Z_scope.

Section Dng.
Context {M : Mode}.

(** ** DNG *)
(** dng.rs:29-36: the directories of full size with a known compression *)
Fixpoint dng_full (l : list ifd) : res (list ifd) :=
  match l with
  | [] => Ok []
  | i :: t =>
      en <- unwrap_entry i T_Compression ;; c <- get_u32 en 0 ;;
      s <- (match find_entry i T_NewSubFileType with
            | Some en => v <- get_u32 en 0 ;; Ok (negb (v &&& 1 =? 0))
            | None => Ok false
            end) ;;
      r <- dng_full t ;;
      Ok (if negb s && ((c =? 7) || (c =? 1) || (c =? 0x884c)) then i :: r else r)
  end.
(** dng.rs:85-91 [get_wb] *)
Definition dng_wb (tiff : ifd) : res (vec4 f32) :=
  match find_entry tiff T_AsShotNeutral with
  | Some levels =>
      a <- get_f32 levels 0 ;; b <- get_f32 levels 1 ;; c <- get_f32 levels 2 ;;
      Ok (V4 (fdiv (flit 1 1) a) (fdiv (flit 1 1) b) (fdiv (flit 1 1) c) NAN)
  | None => Ok nans
  end.
(** dng.rs:93-105 [get_blacklevels] *)
Definition dng_blacks (raw : ifd) : res (vec4 Z) :=
  match find_entry raw T_BlackLevels with
  | Some levels =>
      let level i := v <- get_f32 levels i ;; Ok (f32_to 0 65535 v) in
      if e_count levels <? 4 then b <- level 0 ;; Ok (all4 b)
      else a <- level 0 ;; b <- level 1 ;; c <- level 2 ;; d <- level 3 ;; Ok (V4 a b c d)
  | None => Ok (all4 0)
  end.
(** dng.rs:107-110 [get_whitelevels] *)
Definition dng_whites (raw : ifd) : res (vec4 Z) := v <- tag_usize raw T_WhiteLevel ;; Ok (all4 (as_u16 v)).
(** dng.rs:112-115 [get_cfa] *)
Definition dng_cfa (raw : ifd) : res CFA := p <- fetch_tag raw T_CFAPattern ;; cfa_new_from_tag p.
(** dng.rs:117-125 [get_crops] *)
Definition dng_crops (raw : ifd) (width height : Z) : res (vec4 Z) :=
  match find_entry raw T_ActiveArea with
  | Some crops =>
      t <- get_u32 crops 0 ;;
      r <- get_u32 crops 3 ;; r <- usub width r ;;
      b <- get_u32 crops 2 ;; b <- usub height b ;;
      lft <- get_u32 crops 1 ;;
      Ok (V4 t r b lft)
  | None => Ok (all4 0)
  end.
(** dng.rs:127-153 [get_color_matrix] *)
Definition dng_matrix (tiff : ifd) : res (vec4 (vec3 f32)) :=
  let zero := V3 (f32_of 0) (f32_of 0) (f32_of 0) in
  match (match find_entry tiff T_ColorMatrix2 with Some c => Some c | None => find_entry tiff T_ColorMatrix1 end) with
  | None =>
      Ok (V4 (V3 (flit 412453 1000000) (flit 357580 1000000) (flit 180423 1000000))
             (V3 (flit 212671 1000000) (flit 715160 1000000) (flit 72169 1000000))
             (V3 (flit 19334 1000000) (flit 119193 1000000) (flit 950227 1000000)) zero)
  | Some c =>
      if 12 <? e_count c then Err "color matrix supposedly has too many components"
      else rfold (fun i m =>
             x <- get_f32 c i ;;
             row <- get4 m (i / 3) ;; row <- set3 row (i mod 3) x ;; set4 m (i / 3) row)
           (zrange 0 (e_count c)) (all4 zero)
  end.
(** dng.rs:155-178 [decode_uncompressed] *)
Definition dng_uncompressed (buf : list Z) (tiff raw : ifd) (width height : Z) : res (list Z) :=
  offset <- tag_usize raw T_StripOffsets ;;
  src <- slice_from buf offset ;;
  bps <- tag_usize raw T_BitsPerSample ;;
  if bps =? 16 then decode_16le src width height
  else if bps =? 12 then decode_12be src width height
  else if bps =? 10 then decode_10le src width height
  else if bps =? 8 then
    lin <- fetch_tag tiff T_Linearization ;;
    points <- mapM (fun i => v <- get_u32 lin i ;; Ok (as_u16 v)) (zrange 0 256) ;;
    curve <- lookup_new points ;;
    decode_8bit_wtable src curve width height
  else Err "DNG: Don't know about bps images".
(** dng.rs:206-216: one tile *)
Definition dng_tile (buf : list Z) (offsets : entry) (width height twidth tlength coltiles row col : Z) (strip : list Z) : res (list Z) :=
  offset <- get_u32 offsets (row * coltiles + col) ;;
  src <- slice_from buf offset ;;
  lj <- unwrap (ljpeg_new src) ;;
  bwidth <- usub (Z.min width ((col + 1) * twidth)) (col * twidth) ;;
  blength <- usub (Z.min height ((row + 1) * tlength)) (row * tlength) ;;
  unwrap (ljpeg_decode lj strip (col * twidth) width bwidth blength).
(** dng.rs:180-222 [decode_compressed] *)
Definition dng_compressed (buf : list Z) (raw : ifd) (width height cpp : Z) : res (list Z) :=
  match find_entry raw T_StripOffsets with
  | Some offsets =>
      if negb (e_count offsets =? 1) then Err "DNG: files with more than one slice not supported yet"
      else
        offset <- get_u32 offsets 0 ;;
        src <- slice_from buf offset ;;
        lj <- ljpeg_new src ;;
        ljpeg_decode lj (zeros (width * height)) 0 width width height
  | None =>
      match find_entry raw T_TileOffsets with
      | Some offsets =>
          w <- tag_usize raw T_TileWidth ;; twidth <- umul w cpp ;;
          tlength <- tag_usize raw T_TileLength ;;
          w1 <- usub width 1 ;; if twidth =? 0 then Panic else
          let coltiles := w1 / twidth + 1 in
          h1 <- usub height 1 ;; if tlength =? 0 then Panic else
          let rowtiles := h1 / tlength + 1 in
          n <- umul coltiles rowtiles ;;
          if negb (n =? e_count offsets) then Err "DNG: trying to decode tiles from offsets"
          else
            decode_threaded_multiline width height tlength (fun strip row =>
              rfold (fun col => dng_tile buf offsets width height twidth tlength coltiles (row / tlength) col)
                    (zrange 0 coltiles) strip)
      | None => Err "DNG: didn't find tiles or strips"
      end
  end.
(** dng.rs:48-63: the names and the orientation.  The failure of
    [check_supported] is an [Err], a panic in it escapes. *)
Definition dng_names (l : loader) (tiff : ifd) : res (string * string * string * string * orientation) :=
  match check_supported l tiff with
  | Ok cam => Ok (c_make cam, c_model cam, c_clean_make cam, c_clean_model cam, c_orientation cam)
  | Err _ =>
      make <- fetch_tag tiff T_Make ;; make <- get_string make ;;
      model <- fetch_tag tiff T_Model ;; model <- get_string model ;;
      o <- orientation_from_tiff tiff ;;
      Ok (make, model, make, model, o)
  | Panic => Panic
  | Loop => Loop
  end.
(** dng.rs:28-81 [image] *)
Definition dng_image (l : loader) (buf : list Z) (tiff : ifd) : res (rawimage f32) :=
  ifds <- dng_full (find_ifds_with_tag tiff T_Compression) ;;
  raw <- get ifds 0 ;;
  width <- tag_usize raw T_ImageWidth ;;
  height <- tag_usize raw T_ImageLength ;;
  cpp <- tag_usize raw T_SamplesPerPixel ;;
  pi <- tag_usize raw T_PhotometricInt ;;
  let linear := pi =? 34892 in
  c <- tag_usize raw T_Compression ;;
  image <- (if c =? 1 then dng_uncompressed buf tiff raw (width * cpp) height
            else if c =? 7 then dng_compressed buf raw (width * cpp) height cpp
            else Err "Don't know how to read DNGs with compression") ;;
  '(make, model, clean_make, clean_model, orientation) <- dng_names l tiff ;;
  wb <- dng_wb tiff ;;
  blacks <- dng_blacks raw ;;
  whites <- dng_whites raw ;;
  matrix <- dng_matrix tiff ;;
  cfa <- (if linear then cfa_new "" else dng_cfa raw) ;;
  crops <- dng_crops raw width height ;;
  Ok (mkimg make model clean_make clean_model width height cpp wb whites blacks matrix cfa crops orientation image).

(** ** Canon CR2 *)
(** ljpeg/mod.rs:300-301 [super_v], [super_h] *)
Definition lj_super_v (lj : ljpeg) : res Z := c <- get (s_comps (lj_sof lj)) 0 ;; Ok (c_super_v c).
Definition lj_super_h (lj : ljpeg) : res Z := c <- get (s_comps (lj_sof lj)) 0 ;; Ok (c_super_h c).
(** cr2.rs:157-172 [get_wb] *)
Definition cr2_wb (tiff : ifd) (cam : camera) : res (vec4 f32) :=
  match find_entry tiff T_Cr2ColorData with
  | Some levels =>
      let offset := if negb (c_wb_offset cam =? 0) then c_wb_offset cam else 63 in
      a <- get_force_u16 levels offset ;; b <- get_force_u16 levels (offset + 1) ;; c <- get_force_u16 levels (offset + 3) ;;
      Ok (V4 (f32_of a) (f32_of b) (f32_of c) NAN)
  | None =>
      match find_entry tiff T_Cr2PowerShotWB with
      | Some levels =>
          a <- get_force_u32 levels 3 ;; b <- get_force_u32 levels 2 ;; c <- get_force_u32 levels 4 ;;
          Ok (V4 (f32_of a) (f32_of b) (f32_of c) NAN)
      | None =>
          match find_entry tiff T_Cr2OldWB with
          | Some levels => a <- get_f32 levels 0 ;; b <- get_f32 levels 1 ;; c <- get_f32 levels 2 ;; Ok (V4 a b c NAN)
          | None => Ok nans
          end
      end
  end.
(** cr2.rs:174-198 [convert_to_rgb] *)
Definition convert_to_rgb (tiff : ifd) (cam : camera) (image : list Z) : res (list Z) :=
  coeffs <- cr2_wb tiff cam ;;
  let i32_of (x : f32) := f32_to (- 2 ^ 31) (2 ^ 31 - 1) x in
  let c1 := i32_of (fdiv (flit 1048576 1) (e0 coeffs)) in
  let c2 := i32_of (e1 coeffs) in
  let c3 := i32_of (fdiv (flit 1048576 1) (e2 coeffs)) in
  let yoffset := if find_hint cam "40d_yuv" then 512 else 0 in
  pixels <- mapM (yuv_to_rgb c1 c2 c3 yoffset) (chunks 3 image) ;;
  Ok (concat pixels).
(** cr2.rs:28-38: the directory of the raw picture and the place of the data *)
Definition cr2_raw (tiff : ifd) : res (ifd * Z) :=
  match find_first_ifd tiff T_Cr2Id with
  | Some raw => o <- tag_usize raw T_StripOffsets ;; Ok (raw, o)
  | None =>
      match find_first_ifd tiff T_CFAPattern with
      | Some raw => o <- tag_usize raw T_StripOffsets ;; Ok (raw, o)
      | None =>
          match find_entry tiff T_Cr2OldOffset with
          | Some off => o <- get_u32 off 0 ;; Ok (tiff, o)
          | None => Err "CR2: Couldn't find raw info"
          end
      end
  end.
(** cr2.rs:50-65 *)
Definition cr2_linearize (tiff : ifd) (camera : camera) (ljpegout : list Z) : res (list Z) :=
  if find_hint camera "linearization" then
    lin <- fetch_tag tiff T_GrayResponse ;;
    t <- mapM (fun i => v <- get_u32 lin i ;; Ok (as_u16 v)) (zrange 0 4096) ;;
    table <- lookup_new t ;;
    random <- get ljpegout 0 ;;
    linearize table ljpegout random
  else Ok ljpegout.
(** cr2.rs:67-81: the size of the picture.  Result: (width, height, pixels) *)
Definition cr2_size (tiff raw : ifd) (camera : camera) (cpp width height : Z) (ljpegout : list Z) : res (Z * Z * list Z) :=
  if cpp =? 3 then
    ljpegout <- convert_to_rgb tiff camera ljpegout ;;
    if has_entry raw T_ImageWidth then
      w <- tag_usize raw T_ImageWidth ;; h <- tag_usize raw T_ImageLength ;; Ok (w * cpp, h, ljpegout)
    else if width / cpp <? height then Ok (height * cpp, width / cpp, ljpegout)
    else Ok (width, height, ljpegout)
  else if find_hint camera "double_line" then Ok (width / 2, height * 2, ljpegout)
  else Ok (width, height, ljpegout).
(** cr2.rs:83-140: the vertical stripes *)
Definition cr2_stripes (raw : ifd) (lj : ljpeg) (cpp width height : Z) (ljpegout : list Z) : res (list Z) :=
  match find_entry raw T_Cr2StripeWidths with
  | Some canoncol =>
      n <- get_u32 canoncol 0 ;;
      if n =? 0 then Ok ljpegout
      else
        w <- get_u32 canoncol 1 ;; last <- get_u32 canoncol 2 ;;
        sv <- lj_super_v lj ;; sh <- lj_super_h lj ;;
        if sv =? 2 then stripes_v2 ljpegout (lj_width lj) width height (field_widths n w last)
        else stripes_v1 ljpegout width height sh cpp (field_widths n w last)
  | None => Ok ljpegout
  end.
(** cr2.rs:26-154 [image] *)
Definition img_three (i : rawimage f32) : rawimage f32 :=
  mkimg (i_make i) (i_model i) (i_clean_make i) (i_clean_model i) (i_width i / 3) (i_height i) 3 (i_wb i)
        (all4 65535) (all4 0) (i_xyz_to_cam i) (i_cfa i) (all4 0) (i_orientation i) (i_data i).
Definition cr2_image (l : loader) (buf : list Z) (tiff : ifd) : res (rawimage f32) :=
  camera <- check_supported l tiff ;;
  '(raw, offset) <- cr2_raw tiff ;;
  src <- slice_from buf offset ;;
  lj <- ljpeg_new src ;;
  let width := lj_width lj in
  let height := lj_height lj in
  sh <- lj_super_h lj ;;
  let cpp := if sh =? 2 then 3 else 1 in
  ljpegout <- ljpeg_decode lj (zeros (width * height)) 0 width width height ;;
  ljpegout <- cr2_linearize tiff camera ljpegout ;;
  '(width, height, ljpegout) <- cr2_size tiff raw camera cpp width height ljpegout ;;
  image <- cr2_stripes raw lj cpp width height ljpegout ;;
  wb <- cr2_wb tiff camera ;;
  img <- ok_image camera width height wb image ;;
  Ok (if cpp =? 3 then img_three img else img).

(** ** Fuji RAF *)
(** raf.rs:92-100 [get_wb] *)
Definition raf_wb (tiff : ifd) : res (vec4 f32) :=
  match find_entry tiff T_RafWBGRB with
  | Some levels => a <- get_f32 levels 1 ;; b <- get_f32 levels 0 ;; c <- get_f32 levels 2 ;; Ok (V4 a b c NAN)
  | None =>
      levels <- fetch_tag tiff T_RafOldWB ;;
      a <- get_f32 levels 1 ;; b <- get_f32 levels 0 ;; c <- get_f32 levels 3 ;; Ok (V4 a b c NAN)
  end.
(** raf.rs:27-33 *)
Definition raf_dims (raw : ifd) : res (Z * Z) :=
  if has_entry raw T_RafImageWidth then
    w <- tag_usize raw T_RafImageWidth ;; h <- tag_usize raw T_RafImageLength ;; Ok (w, h)
  else
    sizes <- fetch_tag raw T_ImageWidth ;; w <- get_u32 sizes 1 ;; h <- get_u32 sizes 0 ;; Ok (w, h).
(** raf.rs:41-66 *)
Definition raf_pixels (camera : camera) (e : endian) (src : list Z) (bps width height : Z) : res (list Z) :=
  if find_hint camera "double_width" then decode_16le_skiplines src width height
  else if find_hint camera "jpeg32" then decode_12be_msb32 src width height
  else
    n <- umul bps width ;; n <- umul n height ;;
    if zlen src <? n / 8 then Err "RAF: Don't know how to decode compressed yet"
    else if bps =? 12 then decode_12le src width height
    else if bps =? 14 then decode_14le_unpacked src width height
    else if bps =? 16 then if little e then decode_16le src width height else decode_16be src width height
    else Err "RAF: Don't know how to decode bps".
(** raf.rs:24-88 [image] *)
Definition raf_image (l : loader) (buf : list Z) (tiff : ifd) : res (rawimage f32) :=
  camera <- check_supported l tiff ;;
  raw <- fetch_ifd tiff T_RafOffsets ;;
  '(width, height) <- raf_dims raw ;;
  o <- tag_usize raw T_RafOffsets ;; offset <- uadd o (i_start raw) ;;
  bps <- (match find_entry raw T_RafBitsPerSample with Some v => get_u32 v 0 | None => Ok 16 end) ;;
  src <- slice_from buf offset ;;
  image <- raf_pixels camera (i_endian tiff) src bps width height ;;
  if find_hint camera "fuji_rotation" || find_hint camera "fuji_rotation_alt" then
    let c := c_crops camera in
    '(width, height, image) <- rotate_image image (find_hint camera "fuji_rotation_alt") (e0 c, e1 c, e2 c, e3 c) width height ;;
    wb <- raf_wb tiff ;;
    Ok (mkimg (c_make camera) (c_model camera) (c_clean_make camera) (c_clean_model camera) width height 1 wb
              (c_whites camera) (c_blacks camera) (c_xyz_to_cam camera) (c_cfa camera) (all4 0) (c_orientation camera) image)
  else
    wb <- raf_wb tiff ;; ok_image camera width height wb image.

(** ** Leaf MOS *)
(** [parse::<f32>] *)
Context (parse_f32 : string -> option f32).
(** [split_terminator("\n")] *)
Fixpoint split_lines (l cur : list Z) : list (list Z) :=
  match l with
  | [] => match cur with [] => [] | _ => [rev cur] end
  | x :: t => if x =? 10 then rev cur :: split_lines t [] else split_lines t (x :: cur)
  end.
(** mos.rs:60-70: the four numbers at the start of [data] *)
Definition mos_neutrals (data : list Z) : vec4 f32 :=
  if existsb (Z.eqb 0) data then
    let text := before_nul data in
    let nums := map (fun x => match parse_f32 (str_of x) with Some v => v | None => NAN end)
                    (split_lines (utf8_lossy (length text) text) []) in
    match nums with
    | [a; b; c; d] => V4 (fdiv a b) (fdiv a c) (fdiv a d) NAN
    | _ => nans
    end
  else nans.
(** "NeutObj_neutrals" *)
Definition W_NeutObj : list Z := [78; 101; 117; 116; 79; 98; 106; 95; 110; 101; 117; 116; 114; 97; 108; 115].
(** mos.rs:54-76: [meta] is what is left from [pos] *)
Fixpoint mos_scan (meta : list Z) : vec4 f32 :=
  match meta with
  | [] => nans
  | _ :: t =>
      if 70 <? zlen meta then
        if same_bytes (firstn 16 meta) W_NeutObj then mos_neutrals (skipn 44 meta) else mos_scan t
      else nans
  end.
(** mos.rs:54-77 [get_wb] *)
Definition mos_wb (tiff : ifd) : res (vec4 f32) := meta <- fetch_tag tiff T_LeafMetadata ;; Ok (mos_scan (e_data meta)).
(** mos.rs:79-86 [xmp_tag].  The positions found are those of ASCII characters,
    so that the slice is always one of whole characters. *)
Definition xmp_tag (tiff : ifd) (tag : string) : res string :=
  xmp <- fetch_tag tiff T_Xmp ;; xmp <- get_string xmp ;;
  match String.index 0 (String.append "<tiff:" (String.append tag ">")) xmp with
  | None => Err "MOS: Couldn't find XMP tag"
  | Some start =>
      match String.index 0 (String.append "</tiff:" (String.append tag ">")) xmp with
      | None => Err "MOS: Couldn't find XMP tag"
      | Some stop =>
          let a := (start + String.length tag + 7)%nat in
          if Nat.leb a stop then Ok (String.substring a (stop - a) xmp) else Panic
      end
  end.
(** mos.rs:28 [split_terminator("(").next().unwrap()]: the empty string has no
    part at all *)
Definition before_paren (s : string) : res string :=
  if String.eqb s "" then Panic
  else Ok (match String.index 0 "(" s with Some n => String.substring 0 n s | None => s end).
(** mos.rs:88-102 [decode_compressed] *)
Definition mos_decompress (cam : camera) (src : list Z) (width height : Z) : res (list Z) :=
  lj <- ljpeg_new_full src true true ;;
  ljpegout <- decode_leaf lj width height ;;
  if find_hint cam "interlaced" then mos_interlace ljpegout width height else Ok ljpegout.
(** mos.rs:25-51 [image] *)
Definition mos_image (l : loader) (buf : list Z) (tiff : ifd) : res (rawimage f32) :=
  make <- xmp_tag tiff "Make" ;;
  model_full <- xmp_tag tiff "Model" ;;
  model <- before_paren model_full ;;
  camera <- check_supported_with_everything l make model "" ;;
  raw <- fetch_ifd tiff T_TileOffsets ;;
  width <- tag_usize raw T_ImageWidth ;;
  height <- tag_usize raw T_ImageLength ;;
  offset <- tag_usize raw T_TileOffsets ;;
  src <- slice_from buf offset ;;
  c <- tag_usize raw T_Compression ;;
  image <- (if c =? 1 then if little (i_endian tiff) then decode_16le src width height else decode_16be src width height
            else if (c =? 7) || (c =? 99) then mos_decompress camera src width height
            else Err "MOS: unsupported compression") ;;
  wb <- mos_wb tiff ;;
  ok_image camera width height wb image.
End Dng.
