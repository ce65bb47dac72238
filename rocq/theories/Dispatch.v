(** Model of src/decoders/mod.rs [get_decoder], [decode], [decode_safe] and of
    src/lib.rs [decode]: which format a file has and what is done with it.

    Not modelled: opening and reading the file (an error there is returned as an
    error), running out of memory. *)
From Coq Require Import String ZArith List Bool.
From Verif Require Import Base Num F32 Bytes Tiff Ciff Image Camera Clients Decoder.
From Verif Require Import Dec_Simple Dec_Header Dec_Crw Dec_Pred Dec_Nef Dec_Ljpeg.
Import ListNotations.
Local Open Scope Z_scope.

(** The decoders of the formats that are a TIFF file *)
Inductive format :=
| ARW | MEF | ORF | SRW | ERF | KDC | DCS | DCR | RW2 | RAF | PEF | IIQ | TFR | NEF | NRW | CR2 | DNG | MOS.
(** [Box<Decoder>]: the format with what its constructor has read *)
Inductive decoder :=
| DMrw (d : mrw_info * Z * ifd)
| DCrw (ciff : cifd)
| DAri
| DX3f (images : list x3f_entry)
| DTiff (f : format) (tiff : ifd)
| DNaked (cam : camera).

(** mod.rs:369-393: the decoder for a make *)
Definition makes : list (string * format) :=
  [("SONY", ARW); ("Mamiya-OP Co.,Ltd.", MEF); ("OLYMPUS IMAGING CORP.", ORF); ("OLYMPUS CORPORATION", ORF);
   ("OLYMPUS OPTICAL CO.,LTD", ORF); ("SAMSUNG", SRW); ("SEIKO EPSON CORP.", ERF); ("EASTMAN KODAK COMPANY", KDC);
   ("KODAK", DCS); ("Kodak", DCR); ("Panasonic", RW2); ("LEICA", RW2); ("FUJIFILM", RAF);
   ("PENTAX Corporation", PEF); ("RICOH IMAGING COMPANY, LTD.", PEF); ("PENTAX", PEF); ("Leaf", IIQ);
   ("Hasselblad", TFR); ("NIKON CORPORATION", NEF); ("NIKON", NRW); ("Canon", CR2); ("Phase One A/S", IIQ)]%string.
Fixpoint lookup_make (l : list (string * format)) (make : string) : option format :=
  match l with
  | [] => None
  | (k, f) :: t => if String.eqb make k then Some f else lookup_make t make
  end.
(** ari.rs:5-7 [is_ari] *)
Definition is_ari (buf : list Z) : res bool := at_is buf 0 [65; 82; 82; 73].

Section Dispatch.
Context {M : Mode}.
(** [f32::powf] and [parse::<f32>] *)
Context (powf : f32 -> f32 -> f32) (parse_f32 : string -> option f32).

(** mod.rs:399-405: by the size of the file *)
Definition by_size (l : loader) (size : Z) : res decoder :=
  match find_naked l size with
  | Some cam => Ok (DNaked cam)
  | None => Err "Couldn't find a decoder for this file."
  end.
(** mod.rs:353-396: a TIFF file *)
Definition by_tiff (l : loader) (size : Z) (tiff : ifd) : res decoder :=
  if has_entry tiff T_DNGVersion then Ok (DTiff DNG tiff)
  else
    dcs560 <- (if has_entry tiff T_Model then
                 en <- fetch_tag tiff T_Model ;; s <- get_string en ;; Ok (String.eqb s "DCS560C")
               else Ok false) ;;
    if dcs560 : bool then Ok (DTiff CR2 tiff)
    else if has_entry tiff T_Make then
      en <- fetch_tag tiff T_Make ;; make <- get_string en ;;
      match lookup_make makes make with
      | Some f => Ok (DTiff f tiff)
      | None => Err "Couldn't find a decoder for make"
      end
    else if has_entry tiff T_Software then
      en <- fetch_tag tiff T_Software ;; s <- get_string en ;;
      if String.eqb s "Camera Library" then Ok (DTiff MOS tiff) else by_size l size
    else by_size l size.
(** mod.rs:328-406 [get_decoder]; [buf] is the file with 16 bytes more, [size]
    the size of the file. *)
Definition get_decoder (l : loader) (buf : list Z) (size : Z) : res decoder :=
  mrw <- is_mrw buf ;;
  if mrw : bool then d <- mrw_new buf ;; Ok (DMrw d)
  else
    ciff <- is_ciff buf ;;
    if ciff : bool then c <- cifd_new_file buf size ;; Ok (DCrw c)
    else
      ari <- is_ari buf ;;
      if ari : bool then Ok DAri
      else
        x3f <- is_x3f buf ;;
        if x3f : bool then d <- x3f_new buf size ;; Ok (DX3f d)
        else
          match ifd_new_file buf with
          | Ok tiff => by_tiff l size tiff
          | Err _ => by_size l size
          | Panic => Panic
          | Loop => Loop
          end.
(** [decoder.image()] *)
Definition decoder_image (l : loader) (buf : list Z) (d : decoder) : res (rawimage f32) :=
  match d with
  | DMrw d => mrw_image l buf d
  | DCrw ciff => crw_image l buf ciff
  | DAri => ari_image l buf
  | DX3f images => x3f_image l buf images
  | DNaked cam => nkd_image buf cam
  | DTiff f tiff =>
      match f with
      | ARW => arw_image l buf tiff
      | MEF => mef_image l buf tiff
      | ORF => orf_image l buf tiff
      | SRW => srw_image l buf tiff
      | ERF => erf_image l buf tiff
      | KDC => kdc_image l buf tiff
      | DCS => dcs_image l buf tiff
      | DCR => dcr_image l buf tiff
      | RW2 => rw2_image l buf tiff
      | RAF => raf_image l buf tiff
      | PEF => pef_image l buf tiff
      | IIQ => iiq_image l buf tiff
      | TFR => tfr_image l buf tiff
      | NEF => nef_image powf l buf tiff
      | NRW => nrw_image l buf tiff
      | CR2 => cr2_image l buf tiff
      | DNG => dng_image l buf tiff
      | MOS => mos_image parse_f32 l buf tiff
      end
  end.
(** mod.rs:432-436 [decode] *)
Definition decode (l : loader) (file : list Z) : res (rawimage f32) :=
  let buf := buffer_new file in
  d <- get_decoder l buf (zlen file) ;;
  decoder_image l buf d.
(** mod.rs:438-449 [decode_safe], for a file that can be read *)
Definition decode_safe (l : loader) (file : list Z) : res (rawimage f32) :=
  match decode l file with
  | Panic => Err "Caught a panic while decoding."
  | r => r
  end.
(** lib.rs [decode].  The cameras are set up by the first call, outside of
    [catch_unwind]. *)
Definition lib_decode (db : list table) (file : list Z) : res (rawimage f32) :=
  l <- loader_new db ;; decode_safe l file.
End Dispatch.
