(** Models of src/decoders/mrw.rs and src/decoders/x3f.rs: the formats with a
    header of their own in front of the directories. *)
From Coq Require Import String ZArith List Bool.
From Verif Require Import Base Num F32 Bytes Packed Ljpeg Tiff Ciff Image Camera Decoder.
Import ListNotations.
Local Open Scope Z_scope.

Section Header.
Context {M : Mode}.

(** ** Minolta *)
(** mrw.rs:6-8 [is_mrw] *)
Definition is_mrw (buf : list Z) : res bool := v <- BEu32 buf 0 ;; Ok (v =? 0x004D524D).
(** mrw.rs:10-20 [MrwDecoder]: what the header says *)
Record mrw_info := mkmrw { m_width : Z; m_height : Z; m_packed : bool; m_wb : vec4 Z; m_tiffpos : Z }.
Definition mrw_none : mrw_info := mkmrw 0 0 false (V4 0 0 0 0) 0.
(** mrw.rs:37-55: one block of the header *)
Definition mrw_block (buf : list Z) (currpos tag : Z) (m : mrw_info) : res mrw_info :=
  if tag =? 0x505244 then
    h <- BEu16 buf (currpos + 16) ;; w <- BEu16 buf (currpos + 18) ;; b <- get buf (currpos + 24) ;;
    Ok (mkmrw w h (b =? 12) (m_wb m) (m_tiffpos m))
  else if tag =? 0x574247 then
    a <- BEu16 buf (currpos + 12) ;; b <- BEu16 buf (currpos + 14) ;;
    c <- BEu16 buf (currpos + 16) ;; d <- BEu16 buf (currpos + 18) ;;
    Ok (mkmrw (m_width m) (m_height m) (m_packed m) (V4 a b c d) (m_tiffpos m))
  else if tag =? 0x545457 then
    Ok (mkmrw (m_width m) (m_height m) (m_packed m) (m_wb m) (currpos + 8))
  else Ok m.
(** mrw.rs:33-57.  Every turn reads four bytes at [currpos], so that more turns
    than [buf] has bytes are only possible when a turn does not advance. *)
Fixpoint mrw_scan (fuel : nat) (buf : list Z) (data_offset currpos : Z) (m : mrw_info) : res mrw_info :=
  match fuel with
  | O => Loop
  | S fuel =>
      if currpos + 20 <? data_offset then
        tag <- BEu32 buf currpos ;;
        len <- BEu32 buf (currpos + 4) ;;
        m <- mrw_block buf currpos tag m ;;
        step <- u32add len 8 ;;
        mrw_scan fuel buf data_offset (currpos + step) m
      else Ok m
  end.
(** mrw.rs:23-69 [MrwDecoder::new]: the header, the start of the data and the
    directories *)
Definition mrw_new (buf : list Z) : res (mrw_info * Z * ifd) :=
  o <- BEu32 buf 4 ;; data_offset <- u32add o 8 ;;
  m <- mrw_scan (S (length buf)) buf data_offset 8 mrw_none ;;
  sub <- slice_from buf (m_tiffpos m) ;;
  tiff <- unwrap (ifd_new sub 8 0 0 BIG_ENDIAN) ;;
  Ok (m, data_offset, tiff).
(** mrw.rs:72-97 [image] *)
Definition mrw_image (l : loader) (buf : list Z) (d : mrw_info * Z * ifd) : res (rawimage f32) :=
  let '(m, data_offset, tiff) := d in
  camera <- check_supported l tiff ;;
  src <- slice_from buf data_offset ;;
  image <- (if m_packed m then decode_12be src (m_width m) (m_height m)
            else decode_12be_unpacked src (m_width m) (m_height m)) ;;
  let wb := m_wb m in
  ok_image camera (m_width m) (m_height m)
    (if find_hint camera "swapped_wb" then V4 (f32_of (e2 wb)) (f32_of (e0 wb)) (f32_of (e1 wb)) NAN
     else V4 (f32_of (e0 wb)) (f32_of (e1 wb)) (f32_of (e3 wb)) NAN) image.

(** ** Sigma *)
(** x3f.rs:6-8 [is_x3f] *)
Definition is_x3f (buf : list Z) : res bool := at_is buf 0 [70; 79; 86; 98].
(** x3f.rs:23-31 [X3fImage], without the fields nobody reads *)
Record x3f_entry := mkx3f { x_typ : Z; x_format : Z; x_width : Z; x_height : Z; x_doffset : Z }.
(** x3f.rs:74-87 [X3fImage::new] *)
Definition x3f_entry_new (buf : list Z) (offset : Z) : res x3f_entry :=
  data <- slice_from buf offset ;;
  typ <- LEu32 data 8 ;; format <- LEu32 data 12 ;; width <- LEu32 data 16 ;; height <- LEu32 data 20 ;;
  _ <- LEu32 data 24 ;;
  Ok (mkx3f typ format width height (offset + 28)).
(** x3f.rs:59-72 [X3fDirectory::new]: offset and name *)
Definition x3f_dir_new (buf : list Z) (offset : Z) : res (Z * string) :=
  data <- slice_from buf offset ;;
  off <- LEu32 data 0 ;; _ <- LEu32 data 4 ;; name <- slice data 8 12 ;;
  Ok (off, str_of (utf8_lossy 4 name)).
(** x3f.rs:33-57 [X3fFile::new]: the images.  [size] is the size of the file, 16
    less than that of its buffer. *)
Definition x3f_file_new (buf : list Z) (size : Z) : res (list x3f_entry) :=
  p <- usub size 4 ;;
  offset <- LEu32 buf p ;;
  data <- slice_from buf offset ;;
  version <- LEu32 data 4 ;;
  if version <? 0x00020000 then Err "X3F: Directory version too old"
  else
    entries <- LEu32 data 8 ;;
    rfold (fun i images =>
      '(off, id) <- x3f_dir_new data (12 + i * 12) ;;
      if String.eqb id "IMA2" then img <- x3f_entry_new buf off ;; Ok (images ++ [img])
      else Ok images) (zrange 0 entries) [].
(** x3f.rs:97-107 [X3fDecoder::new] *)
Definition x3f_new (buf : list Z) (size : Z) : res (list x3f_entry) := unwrap (x3f_file_new buf size).
(** x3f.rs:110-140 [image]; [decode_compressed] (x3f.rs:148-150) gives an error *)
Definition x3f_image (l : loader) (buf : list Z) (images : list x3f_entry) : res (rawimage f32) :=
  match find (fun i => (x_typ i =? 2) && (x_format i =? 0x12)) images with
  | None => Err "X3F: Couldn't find camera info"
  | Some caminfo =>
      data <- slice_from buf (x_doffset caminfo + 6) ;;
      exif <- at_is data 0 [69; 120; 105; 102] ;;
      if negb exif then Err "X3F: Couldn't find EXIF info"
      else
        tiff <- ifd_new_root buf (x_doffset caminfo + 12) ;;
        _ <- check_supported l tiff ;;
        match find (fun i => (x_typ i =? 1) || (x_typ i =? 3)) images with
        | None => Err "X3F: Couldn't find image"
        | Some imginfo =>
            _ <- slice_from buf (x_doffset imginfo) ;;
            if x_format imginfo =? 35 then Err "X3F decoding not implemented yet"
            else Err "X3F Don't know how to decode format"
        end
  end.
End Header.
