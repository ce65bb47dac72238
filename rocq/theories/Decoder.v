(** Model of what the format decoders share: floating point values of a file,
    strings, lookups with an error, the decoded image.

    The text of an error message is shortened to its fixed part.  [clone] of a
    camera or a colour filter is the identity (cfa.rs:clone is C10). *)
From Coq Require Import String Ascii ZArith List Bool.
From Flocq Require Import BinarySingleNaN.
From Verif Require Import Base Num F32 Bytes Cfa Transform Image Camera Tiff Ciff.
Import ListNotations.
Local Open Scope Z_scope.

(** ** Single precision numbers *)
Definition fadd : f32 -> f32 -> f32 := Bplus mode_NE.
Definition fsub : f32 -> f32 -> f32 := Bminus mode_NE.
Definition fmul : f32 -> f32 -> f32 := Bmult mode_NE.
Definition fdiv : f32 -> f32 -> f32 := Bdiv mode_NE.
(** A decimal literal [p / q] with [p] and [q] up to 2^24. *)
Definition flit (p q : Z) : f32 := fdiv (f32_of p) (f32_of q).
Definition NAN : f32 := B754_nan.
Definition nans : vec4 f32 := all4 NAN.
(** The number with the given IEEE 754 bits *)
Definition f32_bits (b : Z) : f32 :=
  let s := Z.testbit b 31 in
  let e := Z.land (Z.shiftr b 23) 0xff in
  let m := Z.land b 0x7fffff in
  let num (m e : Z) := binary_normalize 24 128 f32_prec f32_emax mode_NE (if s then - m else m) e s in
  if e =? 255 then (if m =? 0 then B754_infinity s else B754_nan)
  else if e =? 0 then num m (-149)
  else num (m + 0x800000) (e - 150).
(** basics.rs:71-73 [LEf32] *)
Definition LEf32 (buf : list Z) (pos : Z) : res f32 := b <- LEu32 buf pos ;; Ok (f32_bits b).
(** tiff.rs:443-455 [get_f32] *)
Definition get_f32 (en : entry) (idx : Z) : res f32 :=
  if e_typ en =? 5 then
    a <- ru32 (e_endian en) (e_data en) (idx * 8) ;;
    b <- ru32 (e_endian en) (e_data en) (idx * 8 + 4) ;; Ok (fdiv (f32_of a) (f32_of b))
  else if e_typ en =? 10 then
    a <- ri32 (e_endian en) (e_data en) (idx * 8) ;;
    b <- ri32 (e_endian en) (e_data en) (idx * 8 + 4) ;; Ok (fdiv (f32_of a) (f32_of b))
  else v <- get_u32 en idx ;; Ok (f32_of v).

(** ** Strings *)
(** A character as UTF-8 *)
Definition chr (z : Z) : ascii := ascii_of_N (Z.to_N z).
Definition utf8_char (c : Z) : list ascii :=
  if c <? 0x80 then [chr c]
  else if c <? 0x800 then [chr (0xc0 + c / 64); chr (0x80 + c mod 64)]
  else if c <? 0x10000 then [chr (0xe0 + c / 4096); chr (0x80 + c / 64 mod 64); chr (0x80 + c mod 64)]
  else [chr (0xf0 + c / 262144); chr (0x80 + c / 4096 mod 64); chr (0x80 + c / 64 mod 64); chr (0x80 + c mod 64)].
(** A Rust string, of which the model of the readers gives the characters *)
Definition str_of (l : list Z) : string := string_of_list_ascii (flat_map utf8_char l).
Definition get_string (en : entry) : res string := l <- get_str en ;; Ok (str_of l).
(** [String::from_utf8_lossy(..).split_terminator("\0").next().unwrap_or("")] *)
Definition first_string (l : list Z) : string :=
  str_of match split_nul (utf8_lossy (length l) l) [] with s :: _ => s | [] => [] end.

(** ** Lookups *)
(** [fetch_tag!] and [fetch_ifd!], mod.rs *)
Definition fetch_tag (i : ifd) (tag : Z) : res entry :=
  match find_entry i tag with Some en => Ok en | None => Err "Couldn't find tag" end.
Definition fetch_ifd (i : ifd) (tag : Z) : res ifd :=
  match find_first_ifd i tag with Some x => Ok x | None => Err "Couldn't find ifd with tag" end.
Definition fetch_cifd_tag (i : cifd) (tag : Z) : res centry :=
  match cfind_entry i tag with Some en => Ok en | None => Err "Couldn't find tag" end.
(** [tiff.find_entry(tag).unwrap()] *)
Definition unwrap_entry (i : ifd) (tag : Z) : res entry :=
  match find_entry i tag with Some en => Ok en | None => Panic end.
(** tiff.rs [get_usize] is [get_u32 as usize] *)
Definition tag_usize (i : ifd) (tag : Z) : res Z := en <- fetch_tag i tag ;; get_u32 en 0.
Definition tag_f32 (i : ifd) (tag idx : Z) : res f32 := en <- fetch_tag i tag ;; get_f32 en idx.

(** mod.rs:228-233 [Orientation::from_tiff] *)
Definition orientation_from_tiff (i : ifd) : res orientation :=
  match find_entry i T_Orientation with
  | Some en => v <- get_u32 en 0 ;; Ok (from_u16 (as_u16 v))
  | None => Ok Unknown
  end.
(** mod.rs:415-426 [check_supported_with_mode] *)
Definition check_supported_with_mode (l : loader) (tiff : ifd) (mode : string) : res camera :=
  make <- fetch_tag tiff T_Make ;; make <- get_string make ;;
  model <- fetch_tag tiff T_Model ;; model <- get_string model ;;
  camera <- check_supported_with_everything l make model mode ;;
  o <- orientation_from_tiff tiff ;;
  Ok (set_orientation o camera).
(** mod.rs:428-430 [check_supported] *)
Definition check_supported (l : loader) (tiff : ifd) : res camera := check_supported_with_mode l tiff "".

(** cfa.rs:28-39 [new_from_tag] *)
Definition cfa_new_from_tag (en : entry) : res CFA :=
  cs <- mapM (fun i => v <- get_u32 en i ;; Ok (if v =? 0 then "R"%char else if v =? 1 then "G"%char else if v =? 2 then "B"%char else "U"%char))
             (zrange 0 (e_count en)) ;;
  cfa_new (string_of_list_ascii cs).

(** ** The image *)
Section Image.
Context {M : Mode}.
(** image.rs:69-74 and 78-83: one pixel of a black area *)
Definition black_pixel (f : CFA) (image : list Z) (width row col : Z) (st : vec4 f32 * vec4 f32) : res (vec4 f32 * vec4 f32) :=
  let '(avg, count) := st in
  color <- color_at f row col ;;
  v <- get image (row * width + col) ;;
  a <- get4 avg color ;; avg <- set4 avg color (fadd a (f32_of v)) ;;
  c <- get4 count color ;; count <- set4 count color (fadd c (flit 1 1)) ;;
  Ok (avg, count).
(** image.rs:66-93 *)
Definition black_levels (camera : camera) (width height : Z) (image : list Z) : res (vec4 Z) :=
  let '(h0, h1) := c_blackareah camera in
  let '(v0, v1) := c_blackareav camera in
  if negb (h1 =? 0) || negb (v1 =? 0) then
    let f := c_cfa camera in
    let zero := all4 (f32_of 0) in
    st <- rfold (fun row => rfold (fun col => black_pixel f image width row col) (zrange 0 width)) (zrange h0 (h0 + h1)) (zero, zero) ;;
    '(avg, count) <- rfold (fun row => rfold (fun col => black_pixel f image width row col) (zrange v0 (v0 + v1))) (zrange 0 height) st ;;
    Ok (tab4 (fun i => f32_to 0 65535 (fdiv (at4 avg i) (at4 count i))))
  else Ok (c_blacks camera).
(** image.rs:65-107 [RawImage::new]; mod.rs:253-255 [ok_image] *)
Definition ok_image (camera : camera) (width height : Z) (wb : vec4 f32) (image : list Z) : res (rawimage f32) :=
  blacks <- black_levels camera width height image ;;
  Ok (mkimg (c_make camera) (c_model camera) (c_clean_make camera) (c_clean_model camera) width height 1 wb
            (c_whites camera) blacks (c_xyz_to_cam camera) (c_cfa camera) (c_crops camera) (c_orientation camera) image).
End Image.
Definition img_set_blacks {A} (b : vec4 Z) (i : rawimage A) : rawimage A :=
  mkimg (i_make i) (i_model i) (i_clean_make i) (i_clean_model i) (i_width i) (i_height i) (i_cpp i) (i_wb i)
        (i_whites i) b (i_xyz_to_cam i) (i_cfa i) (i_crops i) (i_orientation i) (i_data i).
Definition img_set_whites {A} (w : vec4 Z) (i : rawimage A) : rawimage A :=
  mkimg (i_make i) (i_model i) (i_clean_make i) (i_clean_model i) (i_width i) (i_height i) (i_cpp i) (i_wb i)
        w (i_blacks i) (i_xyz_to_cam i) (i_cfa i) (i_crops i) (i_orientation i) (i_data i).
Definition img_set_cpp {A} (n : Z) (i : rawimage A) : rawimage A :=
  mkimg (i_make i) (i_model i) (i_clean_make i) (i_clean_model i) (i_width i) (i_height i) n (i_wb i)
        (i_whites i) (i_blacks i) (i_xyz_to_cam i) (i_cfa i) (i_crops i) (i_orientation i) (i_data i).
(** mod.rs:257-261 [ok_image_with_blacklevels] *)
Definition ok_image_with_blacklevels {M : Mode} (camera : camera) (width height : Z) (wb : vec4 f32) (blacks : vec4 Z)
    (image : list Z) : res (rawimage f32) :=
  img <- ok_image camera width height wb image ;; Ok (img_set_blacks blacks img).
