(** Model of src/decoders/tiff.rs: TIFF directories and entries.  The floating
    point reader [get_f32] is in TiffFloat.v. *)
From Coq Require Import String ZArith List Bool.
From Verif Require Import Base Bytes.
Import ListNotations.
Local Open Scope Z_scope.

(** tiff.rs:6-94 [Tag]: the tags the program knows, in order *)
Definition known_tags : list Z :=
  [0x0002; 0x0003; 0x000C; 0x0011; 0x0012; 0x0014; 0x001d; 0x0024; 0x0025; 0x0026; 0x0029; 0x00FE; 0x0081;
   0x008c; 0x0096; 0x0097; 0x00A4; 0x00a7; 0x0100; 0x0101; 0x0102; 0x0103; 0x0106; 0x010F; 0x0110; 0x0111;
   0x0112; 0x0115; 0x0117; 0x0118; 0x0123; 0x0131; 0x0142; 0x0143; 0x0144; 0x014A; 0x0200; 0x0201; 0x0220;
   0x02BC; 0x03FD; 0x090D; 0x0E80; 0x0F00; 0x1017; 0x1018; 0x2040; 0x2ff0; 0x4001; 0x7010; 0x7200; 0x7201;
   0x7221; 0x7303; 0x7313; 0x828E; 0x8290; 0x8606; 0x8769; 0x927C; 0xA010; 0xA021; 0xA028; 0xc5d8; 0xC612;
   0xC618; 0xC61A; 0xC61D; 0xC621; 0xC622; 0xC628; 0xC634; 0xC640; 0xC68D; 0xF000; 0xF001; 0xF002; 0xF003;
   0xF007; 0xF00E; 0xFA2A; 0xFD00; 0xFD01; 0xFD04; 0xFE00].
(** [Tag::from_u16(x).is_some()] *)
Definition known_tag (x : Z) : bool := existsb (Z.eqb x) known_tags.

(** tiff.rs:8-92: the tags that the program asks for by name *)
Definition T_PanaWidth := 0x0002.        Definition T_PanaLength := 0x0003.
Definition T_NefWB0 := 0x000C.           Definition T_PanaWBsR := 0x0011.
Definition T_PanaWBsB := 0x0012.         Definition T_NrwWB := 0x0014.
Definition T_NefSerial := 0x001d.        Definition T_PanaWBs2R := 0x0024.
Definition T_PanaWBs2G := 0x0025.        Definition T_PanaWBs2B := 0x0026.
Definition T_Cr2PowerShotWB := 0x0029.   Definition T_NewSubFileType := 0x00FE.
Definition T_Cr2OldOffset := 0x0081.     Definition T_NefMeta1 := 0x008c.
Definition T_NefMeta2 := 0x0096.         Definition T_NefWB1 := 0x0097.
Definition T_Cr2OldWB := 0x00A4.         Definition T_NefKey := 0x00a7.
Definition T_ImageWidth := 0x0100.       Definition T_ImageLength := 0x0101.
Definition T_BitsPerSample := 0x0102.    Definition T_Compression := 0x0103.
Definition T_PhotometricInt := 0x0106.   Definition T_Make := 0x010F.
Definition T_Model := 0x0110.            Definition T_StripOffsets := 0x0111.
Definition T_Orientation := 0x0112.      Definition T_SamplesPerPixel := 0x0115.
Definition T_StripByteCounts := 0x0117.  Definition T_PanaOffsets := 0x0118.
Definition T_GrayResponse := 0x0123.     Definition T_Software := 0x0131.
Definition T_TileWidth := 0x0142.        Definition T_TileLength := 0x0143.
Definition T_TileOffsets := 0x0144.      Definition T_SubIFDs := 0x014A.
Definition T_PefBlackLevels := 0x0200.   Definition T_PefWB := 0x0201.
Definition T_PefHuffman := 0x0220.       Definition T_Xmp := 0x02BC.
Definition T_DcrWB := 0x03FD.            Definition T_DcrLinearization := 0x090D.
Definition T_EpsonWB := 0x0E80.          Definition T_KodakWB := 0x0F00.
Definition T_OlympusRedMul := 0x1017.    Definition T_OlympusBlueMul := 0x1018.
Definition T_OlympusImgProc := 0x2040.   Definition T_RafOldWB := 0x2ff0.
Definition T_Cr2ColorData := 0x4001.     Definition T_SonyCurve := 0x7010.
Definition T_SonyOffset := 0x7200.       Definition T_SonyLength := 0x7201.
Definition T_SonyKey := 0x7221.          Definition T_SonyGRBG := 0x7303.
Definition T_SonyRGGB := 0x7313.         Definition T_CFAPattern := 0x828E.
Definition T_KodakIFD := 0x8290.         Definition T_LeafMetadata := 0x8606.
Definition T_ExifIFDPointer := 0x8769.   Definition T_Makernote := 0x927C.
Definition T_SrwSensorAreas := 0xA010.   Definition T_SrwRGGBLevels := 0xA021.
Definition T_SrwRGGBBlacks := 0xA028.    Definition T_Cr2Id := 0xc5d8.
Definition T_DNGVersion := 0xC612.       Definition T_Linearization := 0xC618.
Definition T_BlackLevels := 0xC61A.      Definition T_WhiteLevel := 0xC61D.
Definition T_ColorMatrix1 := 0xC621.     Definition T_ColorMatrix2 := 0xC622.
Definition T_AsShotNeutral := 0xC628.    Definition T_DNGPrivateArea := 0xC634.
Definition T_Cr2StripeWidths := 0xC640.  Definition T_ActiveArea := 0xC68D.
Definition T_RafRawSubIFD := 0xF000.     Definition T_RafImageWidth := 0xF001.
Definition T_RafImageLength := 0xF002.   Definition T_RafBitsPerSample := 0xF003.
Definition T_RafOffsets := 0xF007.       Definition T_RafWBGRB := 0xF00E.
Definition T_KdcWB := 0xFA2A.            Definition T_KdcWidth := 0xFD00.
Definition T_KdcLength := 0xFD01.        Definition T_KdcOffset := 0xFD04.
Definition T_KdcIFD := 0xFE00.

(** tiff.rs:97 [DATASHIFTS]; the type is at most 13 where it is used *)
Definition datashift (typ : Z) : Z := nth (Z.to_nat typ) [0; 0; 0; 1; 2; 3; 0; 0; 1; 2; 3; 2; 3; 2] 0.

(** tiff.rs:103-112 [TiffEntry] *)
Record entry := mkentry {
  e_tag : Z; e_typ : Z; e_count : Z; e_parent : Z; e_doffset : Z; e_data : list Z; e_endian : endian
}.
(** tiff.rs:114-121 [TiffIFD].  The hash map is a list of pairs in which every
    key occurs once; its order is never observed. *)
Inductive ifd := mkifd (entries : list (Z * entry)) (subs : list ifd) (next start : Z) (e : endian).
Definition i_entries (i : ifd) := let 'mkifd x _ _ _ _ := i in x.
Definition i_subs (i : ifd) := let 'mkifd _ x _ _ _ := i in x.
Definition i_next (i : ifd) := let 'mkifd _ _ x _ _ := i in x.
Definition i_start (i : ifd) := let 'mkifd _ _ _ x _ := i in x.
Definition i_endian (i : ifd) := let 'mkifd _ _ _ _ x := i in x.

(** [HashMap::insert] and [HashMap::get] *)
Fixpoint insert {A} (m : list (Z * A)) (k : Z) (v : A) : list (Z * A) :=
  match m with
  | [] => [(k, v)]
  | (k', v') :: t => if k' =? k then (k, v) :: t else (k', v') :: insert t k v
  end.
Fixpoint lookup {A} (m : list (Z * A)) (k : Z) : option A :=
  match m with
  | [] => None
  | (k', v) :: t => if k' =? k then Some v else lookup t k
  end.

Section Parse.
Context {M : Mode}.

(** tiff.rs:385-411 [TiffEntry::new] *)
Definition entry_new (buf : list Z) (offset base_offset parent_offset : Z) (e : endian) : res entry :=
  tag <- ru16 e buf offset ;;
  typ <- ru16 e buf (offset + 2) ;;
  count <- ru32 e buf (offset + 4) ;;
  let typ := if (typ =? 0) || (13 <? typ) then 1 else typ in
  let bytesize := Z.shiftl count (datashift typ) in
  doffset <- (if bytesize <=? 4 then Ok (offset + 8)
              else o <- ru32 e buf (offset + 8) ;; usub o base_offset) ;;
  stop <- uadd doffset bytesize ;;
  data <- slice buf doffset stop ;;
  Ok (mkentry tag typ count parent_offset doffset data e).

(** tiff.rs:413-421 [copy_with_new_data], [copy_offset_from_parent] *)
Definition copy_with_new_data (en : entry) (data : list Z) : entry :=
  mkentry (e_tag en) (e_typ en) (e_count en) (e_parent en) (e_doffset en) data (e_endian en).
Definition copy_offset_from_parent (en : entry) (buffer : list Z) : res entry :=
  data <- slice_from buffer (e_parent en + e_doffset en) ;; Ok (copy_with_new_data en data).

(** tiff.rs:439-445 [get_force_u32], [get_force_u16] *)
Definition get_force_u32 (en : entry) (idx : Z) : res Z := ru32 (e_endian en) (e_data en) (idx * 4).
Definition get_force_u16 (en : entry) (idx : Z) : res Z := ru16 (e_endian en) (e_data en) (idx * 2).
(** tiff.rs:428-437 [get_u32], [get_usize] *)
Definition get_u32 (en : entry) (idx : Z) : res Z :=
  let typ := e_typ en in
  if typ =? 1 then get (e_data en) idx
  else if (typ =? 3) || (typ =? 8) then ru16 (e_endian en) (e_data en) (idx * 2)
  else if (typ =? 4) || (typ =? 7) || (typ =? 9) || (typ =? 13) then get_force_u32 en idx
  else Panic.

(** [buf[a..b] == b"..."[..]] *)
Fixpoint same_bytes (a b : list Z) : bool :=
  match a, b with
  | [], [] => true
  | x :: a', y :: b' => (x =? y) && same_bytes a' b'
  | _, _ => false
  end.
Definition at_is (buf : list Z) (a : Z) (word : list Z) : res bool :=
  s <- slice buf a (a + zlen word) ;; Ok (same_bytes s word).

Definition W_II : list Z := [0x49; 0x49].
Definition W_MM : list Z := [0x4d; 0x4d].
Definition W_OLYMP : list Z := [79; 76; 89; 77; 80].
Definition W_OLYMPUS : list Z := [79; 76; 89; 77; 80; 85; 83].
Definition W_EPSON : list Z := [69; 80; 83; 79; 78].
Definition W_AOC : list Z := [65; 79; 67; 0].
Definition W_PENTAX : list Z := [80; 69; 78; 84; 65; 88].
Definition W_NIKON : list Z := [78; 105; 107; 111; 110; 0; 2].
Definition W_FUJIFILM : list Z := [70; 85; 74; 73; 70; 73; 76; 77].

(** A parser of directories: buffer, offset, base offset, start offset, byte
    order. *)
Definition parser := list Z -> Z -> Z -> Z -> endian -> res ifd.

(** tiff.rs:243-293 [new_makernote], given the parser for the next level *)
Definition makernote (parse : parser) (buf : list Z) (offset base_offset : Z) (e : endian) : res ifd :=
  data <- slice_from buf offset ;;
  ol <- at_is data 0 W_OLYMP ;;
  off <- (if ol : bool then us <- at_is data 0 W_OLYMPUS ;; Ok (if us : bool then 12 else 8) else Ok 0) ;;
  ep <- at_is data 0 W_EPSON ;;
  let off := if ep : bool then off + 8 else off in
  ao <- at_is data 0 W_AOC ;;
  let off := if ao : bool then off + 4 else off in
  pe <- at_is data 0 W_PENTAX ;;
  if pe : bool then
    le <- at_is data (off + 8) W_II ;;
    parse data 10 base_offset 0 (if le : bool then LITTLE_ENDIAN else BIG_ENDIAN)
  else
  ni <- at_is data 0 W_NIKON ;;
  if ni : bool then
    le <- at_is data (off + 10) W_II ;;
    sub <- slice_from buf (off + 10 + offset) ;;
    parse sub 8 base_offset 0 (if le : bool then LITTLE_ENDIAN else BIG_ENDIAN)
  else
  le <- at_is data off W_II ;;
  let '(off, endian) := if le : bool then (off + 2, LITTLE_ENDIAN) else (off, e) in
  be <- at_is data off W_MM ;;
  let '(off, endian) := if be : bool then (off + 2, BIG_ENDIAN) else (off, endian) in
  parse buf (offset + off) base_offset 0 endian.

Definition is_subifd_tag (tag : Z) : bool :=
  (tag =? T_SubIFDs) || (tag =? T_ExifIFDPointer) || (tag =? T_RafRawSubIFD) || (tag =? T_KodakIFD) || (tag =? T_KdcIFD).

(** tiff.rs:203-213, 216-220: a directory that cannot be parsed is kept as an
    entry; panics are not caught. *)
Definition add_sub (r : res ifd) (en : entry) (st : list (Z * entry) * list ifd) : res (list (Z * entry) * list ifd) :=
  let '(entries, subs) := st in
  match r with
  | Ok i => Ok (entries, subs ++ [i])
  | Err _ => Ok (insert entries (e_tag en) en, subs)
  | Panic => Panic
  | Loop => Loop
  end.

(** tiff.rs:184-241 [TiffIFD::new]; [deeper] is the parser used for the
    directories inside this one, [None] when [depth] is 10 or more. *)
Definition ifd_body (deeper : option parser) (buf : list Z) (offset base_offset start_offset : Z) (e : endian) : res ifd :=
  num <- ru16 e buf offset ;;
  if 4000 <? num then Err "too many entries in IFD"%string else
  '(entries, subs) <- rfold (fun i st =>
      let entry_offset := offset + 2 + i * 12 in
      tag <- ru16 e buf entry_offset ;;
      if negb (known_tag tag) then Ok st else
      en <- entry_new buf entry_offset base_offset offset e ;;
      if is_subifd_tag (e_tag en) then
        match deeper with
        | None => Ok st
        | Some parse =>
            rfold (fun i st => off <- get_u32 en i ;; add_sub (parse buf off base_offset start_offset e) en st)
              (zrange 0 (e_count en)) st
        end
      else if e_tag en =? T_Makernote then
        match deeper with
        | None => Ok st
        | Some parse => add_sub (makernote parse buf (e_doffset en) base_offset e) en st
        end
      else let '(entries, subs) := st in Ok (insert entries (e_tag en) en, subs))
    (zrange 0 num) ([], []) ;;
  next <- ru32 e buf (offset + (2 + num * 12)) ;;
  Ok (mkifd entries subs next start_offset e).

(** tiff.rs:184-241: [levels] is 10 - [depth]. *)
Fixpoint ifd_levels (levels : nat) (buf : list Z) (offset base_offset start_offset : Z) (e : endian) : res ifd :=
  match levels with
  | O => ifd_body None buf offset base_offset start_offset e
  | S l => ifd_body (Some (fun buf offset base start e => ifd_levels l buf offset base start e)) buf offset base_offset start_offset e
  end.
(** [TiffIFD::new] with [depth = 0], as called from other files *)
Definition ifd_new : parser := ifd_levels 10.

(** tiff.rs:168-176: the chain of directories; at most [n] are read *)
Fixpoint ifd_chain (n : nat) (buf : list Z) (offset next : Z) (e : endian) (subs : list ifd) : res (list ifd) :=
  match n with
  | O => Ok subs
  | S n' =>
      inner <- slice_from buf offset ;;
      i <- ifd_levels 10 inner next 0 offset e ;;
      if i_next i =? 0 then Ok (subs ++ [i]) else ifd_chain n' buf offset (i_next i) e (subs ++ [i])
  end.
(** tiff.rs:159-182 [new_root] *)
Definition ifd_new_root (buf : list Z) (offset : Z) : res ifd :=
  mark <- LEu16 buf offset ;;
  e <- (if mark =? 0x4949 then Ok LITTLE_ENDIAN
        else if mark =? 0x4d4d then Ok BIG_ENDIAN
        else Err "TIFF: don't know marker"%string) ;;
  next <- ru32 e buf (offset + 4) ;;
  subs <- ifd_chain 100 buf offset next e [] ;;
  Ok (mkifd [] subs 0 offset e).

(** tiff.rs:295-338 [new_fuji] *)
Definition ifd_new_fuji (buf : list Z) (offset : Z) : res ifd :=
  num <- BEu32 buf offset ;;
  if 4000 <? num then Err "too many entries in IFD"%string else
  '(entries, _) <- rfold (fun _ '(entries, off) =>
      tag <- BEu16 buf off ;;
      len <- BEu16 buf (off + 2) ;;
      entries <- (if tag =? T_ImageWidth then
                    data <- slice buf (off + 4) (off + 8) ;;
                    Ok (insert entries T_ImageWidth (mkentry T_ImageWidth 3 2 0 (off + 4) data BIG_ENDIAN))
                  else if tag =? T_RafOldWB then
                    data <- slice buf (off + 4) (off + 12) ;;
                    Ok (insert entries T_RafOldWB (mkentry T_RafOldWB 3 4 0 (off + 4) data BIG_ENDIAN))
                  else Ok entries) ;;
      step <- u16add len 4 ;;
      Ok (entries, off + step))
    (zrange 0 num) ([], offset + 4) ;;
  Ok (mkifd entries [] 0 0 BIG_ENDIAN).

(** tiff.rs:124-157 [new_file] *)
Definition ifd_new_file (buf : list Z) : res ifd :=
  fuji <- at_is buf 0 W_FUJIFILM ;;
  if fuji : bool then
    o <- BEu32 buf 84 ;; o <- u32add o 12 ;;
    ifd1 <- ifd_new_root buf o ;;
    ioffset <- BEu32 buf 100 ;;
    '(entries, subs) <-
      match ifd_new_root buf ioffset with
      | Ok i => Ok ([], [ifd1; i])
      | Err _ =>
          data <- slice buf 100 104 ;;
          Ok ([(T_RafOffsets, mkentry T_RafOffsets 4 1 0 100 data BIG_ENDIAN)], [ifd1])
      | Panic => Panic
      | Loop => Loop
      end ;;
    foff <- BEu32 buf 92 ;;
    subs <- match ifd_new_fuji buf foff with
            | Ok i => Ok (subs ++ [i])
            | Err _ => Ok subs
            | Panic => Panic
            | Loop => Loop
            end ;;
    Ok (mkifd entries subs 0 0 (i_endian ifd1))
  else ifd_new_root buf 0.
End Parse.

(** tiff.rs:340-352 [find_entry] *)
Fixpoint find_entry (i : ifd) (tag : Z) : option entry :=
  let 'mkifd entries subs _ _ _ := i in
  match lookup entries tag with
  | Some x => Some x
  | None =>
      (fix go (l : list ifd) : option entry :=
         match l with
         | [] => None
         | s :: t => match find_entry s tag with Some x => Some x | None => go t end
         end) subs
  end.
(** tiff.rs:354-356 [has_entry] *)
Definition has_entry (i : ifd) (tag : Z) : bool := match find_entry i tag with Some _ => true | None => false end.
(** [entries.contains_key] *)
Definition contains (i : ifd) (tag : Z) : bool := match lookup (i_entries i) tag with Some _ => true | None => false end.
(** tiff.rs:358-370 [find_ifds_with_tag] *)
Fixpoint find_ifds_with_tag (i : ifd) (tag : Z) : list ifd :=
  let 'mkifd _ subs _ _ _ := i in
  (if contains i tag then [i] else []) ++
  (fix go (l : list ifd) : list ifd :=
     match l with
     | [] => []
     | s :: t => (if contains s tag then [s] else []) ++ find_ifds_with_tag s tag ++ go t
     end) subs.
(** tiff.rs:372-379 [find_first_ifd] *)
Definition find_first_ifd (i : ifd) (tag : Z) : option ifd :=
  match find_ifds_with_tag i tag with [] => None | x :: _ => Some x end.

(** ** Strings *)

(** [str::from_utf8]: the code points, or [None].  Unicode 3.9, table 3-7. *)
Definition cont (b : Z) : bool := (0x80 <=? b) && (b <=? 0xbf).
Fixpoint utf8 (fuel : nat) (l : list Z) : option (list Z) :=
  match fuel with
  | O => Some []
  | S f =>
      match l with
      | [] => Some []
      | a :: t =>
          if a <? 0x80 then option_map (cons a) (utf8 f t)
          else if (0xc2 <=? a) && (a <=? 0xdf) then
            match t with
            | b :: t => if cont b then option_map (cons ((a - 0xc0) * 64 + (b - 0x80))) (utf8 f t) else None
            | _ => None
            end
          else if (0xe0 <=? a) && (a <=? 0xef) then
            match t with
            | b :: c :: t =>
                if cont b && cont c && (if a =? 0xe0 then 0xa0 <=? b else true) && (if a =? 0xed then b <=? 0x9f else true)
                then option_map (cons (((a - 0xe0) * 64 + (b - 0x80)) * 64 + (c - 0x80))) (utf8 f t) else None
            | _ => None
            end
          else if (0xf0 <=? a) && (a <=? 0xf4) then
            match t with
            | b :: c :: d :: t =>
                if cont b && cont c && cont d && (if a =? 0xf0 then 0x90 <=? b else true) && (if a =? 0xf4 then b <=? 0x8f else true)
                then option_map (cons ((((a - 0xf0) * 64 + (b - 0x80)) * 64 + (c - 0x80)) * 64 + (d - 0x80))) (utf8 f t) else None
            | _ => None
            end
          else None
      end
  end.
(** [char::is_whitespace]: the Unicode property White_Space *)
Definition whitespace (c : Z) : bool :=
  ((9 <=? c) && (c <=? 13)) || (c =? 32) || (c =? 0x85) || (c =? 0xa0) || (c =? 0x1680) ||
  ((0x2000 <=? c) && (c <=? 0x200a)) || (c =? 0x2028) || (c =? 0x2029) || (c =? 0x202f) || (c =? 0x205f) || (c =? 0x3000).
Fixpoint drop_while (f : Z -> bool) (l : list Z) : list Z :=
  match l with [] => [] | x :: t => if f x then drop_while f t else l end.
(** [str::trim] *)
Definition trim (l : list Z) : list Z := rev (drop_while whitespace (rev (drop_while whitespace l))).
(** the bytes before the first 0 *)
Fixpoint before_nul (l : list Z) : list Z := match l with [] => [] | x :: t => if x =? 0 then [] else x :: before_nul t end.
(** tiff.rs:461-471 [get_str]: a string is its list of code points *)
Definition get_str (en : entry) : res (list Z) :=
  let s := before_nul (e_data en) in
  match utf8 (length s) s with Some cs => Ok (trim cs) | None => Panic end.
