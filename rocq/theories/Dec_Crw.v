(** Model of src/decoders/crw.rs: Canon CRW. *)
From Coq Require Import String ZArith List Bool.
From Verif Require Import Base Num F32 Bytes Pumps Packed Threads Ciff Image Camera Decoder.
Import ListNotations.
Local Open Scope Z_scope.

(** crw.rs:55-111: the six trees, sixteen counts and the leaves *)
Definition crw_first_0 : list Z :=
  [0; 1; 4; 2; 3; 1; 2; 0; 0; 0; 0; 0; 0; 0; 0; 0; 4; 3; 5; 6; 2; 7; 1; 8;
   9; 0; 10; 11; 255].
Definition crw_first_1 : list Z :=
  [0; 2; 2; 3; 1; 1; 1; 1; 2; 0; 0; 0; 0; 0; 0; 0; 3; 2; 4; 1; 5; 0; 6; 7;
   9; 8; 10; 11; 255].
Definition crw_first_2 : list Z :=
  [0; 0; 6; 3; 1; 1; 2; 0; 0; 0; 0; 0; 0; 0; 0; 0; 6; 5; 7; 4; 8; 3; 9; 2;
   0; 10; 1; 11; 255].
Definition crw_second_0 : list Z :=
  [0; 2; 2; 2; 1; 4; 2; 1; 2; 5; 1; 1; 0; 0; 0; 139; 3; 4; 2; 5; 1; 6; 7; 8;
   18; 19; 17; 20; 9; 21; 34; 0; 33; 22; 10; 240; 35; 23; 36; 49; 50; 24; 25; 51; 37; 65; 52; 66;
   53; 81; 54; 55; 56; 41; 121; 38; 26; 57; 86; 87; 40; 39; 82; 85; 88; 67; 118; 89; 119; 84; 97; 249;
   113; 120; 117; 150; 151; 73; 183; 83; 215; 116; 182; 152; 71; 72; 149; 105; 153; 145; 250; 184; 104; 181; 185; 214;
   247; 216; 103; 70; 69; 148; 137; 248; 129; 213; 246; 180; 136; 177; 42; 68; 114; 217; 135; 102; 212; 245; 58; 167;
   115; 169; 168; 134; 98; 199; 101; 200; 201; 161; 244; 209; 233; 90; 146; 133; 166; 231; 147; 232; 193; 198; 122; 100;
   225; 74; 106; 230; 179; 241; 211; 165; 138; 178; 154; 186; 132; 164; 99; 229; 197; 243; 210; 196; 130; 170; 218; 228;
   242; 202; 131; 163; 162; 195; 234; 194; 226; 227; 255; 255].
Definition crw_second_1 : list Z :=
  [0; 2; 2; 1; 4; 1; 4; 1; 3; 3; 1; 0; 0; 0; 0; 140; 2; 3; 1; 4; 5; 18; 17; 6;
   19; 7; 8; 20; 34; 9; 33; 0; 35; 21; 49; 50; 10; 22; 240; 36; 51; 65; 66; 25; 23; 37; 24; 81;
   52; 67; 82; 41; 53; 97; 57; 113; 98; 54; 83; 38; 56; 26; 55; 129; 39; 145; 121; 85; 69; 40; 114; 89;
   161; 177; 68; 105; 84; 88; 209; 250; 87; 225; 241; 185; 73; 71; 99; 106; 249; 86; 70; 168; 42; 74; 120; 153;
   58; 117; 116; 134; 101; 193; 118; 182; 150; 214; 137; 133; 201; 245; 149; 180; 199; 247; 138; 151; 184; 115; 183; 216;
   217; 135; 167; 122; 72; 130; 132; 234; 244; 166; 197; 90; 148; 164; 198; 146; 195; 104; 181; 200; 228; 229; 230; 233;
   162; 163; 227; 194; 102; 103; 147; 170; 212; 213; 231; 248; 136; 154; 215; 119; 196; 100; 226; 152; 165; 202; 218; 232;
   243; 246; 169; 178; 179; 242; 210; 131; 186; 211; 255; 255].
Definition crw_second_2 : list Z :=
  [0; 0; 6; 2; 1; 3; 3; 2; 5; 1; 2; 2; 8; 10; 0; 117; 4; 5; 3; 6; 2; 7; 1; 8;
   9; 18; 19; 20; 17; 21; 10; 22; 23; 240; 0; 34; 33; 24; 35; 25; 36; 50; 49; 37; 51; 56; 55; 52;
   53; 54; 57; 121; 87; 88; 89; 40; 86; 120; 39; 65; 41; 119; 38; 66; 118; 153; 26; 85; 152; 151; 249; 72;
   84; 150; 137; 71; 183; 73; 250; 117; 104; 182; 103; 105; 185; 184; 216; 82; 215; 136; 181; 116; 81; 70; 217; 248;
   58; 214; 135; 69; 122; 149; 213; 246; 134; 180; 169; 148; 83; 42; 168; 67; 245; 247; 212; 102; 167; 90; 68; 138;
   201; 232; 200; 231; 154; 106; 115; 74; 97; 199; 244; 198; 101; 233; 114; 230; 113; 145; 147; 166; 218; 146; 133; 98;
   243; 197; 178; 164; 132; 186; 100; 165; 179; 210; 129; 229; 211; 170; 196; 202; 242; 177; 228; 209; 131; 99; 234; 195;
   226; 130; 241; 163; 194; 161; 193; 227; 162; 225; 255; 255].

Section Crw.
Context {M : Mode}.

(** crw.rs:9-12 [CrwHuffTable]: (length of the code, leaf) for every value of the next [ct_nbits] bits *)
Record crwtable := mkcrwt { ct_nbits : Z; ct_tbl : list (Z * Z) }.
(** crw.rs:16-22: the length of the longest code *)
Fixpoint crw_max (counts : list Z) : Z :=
  match counts with
  | [] => 0
  | c :: t => let m := crw_max t in if m =? 0 then (if c =? 0 then 0 else 1) else m + 1
  end.
(** crw.rs:31-36: all the entries of a code *)
Definition crw_fill (max len leaf : Z) (st : Z * list (Z * Z)) : res (Z * list (Z * Z)) :=
  rfold (fun _ '(h, tbl) =>
    if Z.leb h (2 ^ max) then tbl <- upd tbl h (len, leaf) ;; Ok (h + 1, tbl) else Ok (h, tbl))
    (zrange 0 (2 ^ (max - len))) st.
(** crw.rs:14-44 [CrwHuffTable::new] *)
Definition crw_table (source : list Z) : res crwtable :=
  let max := crw_max (firstn 16 source) in
  '(_, _, tbl) <- rfold (fun len st =>
      n <- get source (len - 1) ;;
      rfold (fun _ '(pos, h, tbl) =>
        leaf <- get source pos ;;
        '(h, tbl) <- crw_fill max len leaf (h, tbl) ;;
        Ok (pos + 1, h, tbl)) (zrange 0 n) st)
    (zrange 1 (max + 1)) (16, 0, repeat (0, 0) (Z.to_nat (2 ^ max))) ;;
  Ok (mkcrwt max tbl).
(** crw.rs:46-51 [get_bits] *)
Definition crw_leaf (t : crwtable) (p : pump) : res (Z * pump) :=
  '(c, p) <- peek_bits JPEG p (ct_nbits t) ;;
  '(len, leaf) <- get (ct_tbl t) c ;;
  p <- consume_bits JPEG p len ;;
  Ok (leaf, p).
(** crw.rs:112-117; all six are built at once when the first file is read: the tables of a decoder *)
Definition crw_tables (dectable : Z) : res (crwtable * crwtable) :=
  let '(a, b) := if dectable =? 0 then (crw_first_0, crw_second_0)
                 else if dectable =? 1 then (crw_first_1, crw_second_1) else (crw_first_2, crw_second_2) in
  a <- crw_table a ;; b <- crw_table b ;; Ok (a, b).

(** crw.rs:219-222 (all of it fits in an i32): the value of a difference of [len] bits *)
Definition crw_diff (len : Z) (p : pump) : res (Z * pump) :=
  '(v, p) <- get_bits JPEG p len ;;
  Ok (if v &&& 2 ^ (len - 1) =? 0 then v - (2 ^ len - 1) else v, p).
(** crw.rs:209-227: a block of 64 differences.  [i] grows at every turn. *)
Fixpoint crw_block (fuel : nat) (ts : crwtable * crwtable) (i : Z) (diffbuf : list Z) (p : pump) : res (list Z * pump) :=
  match fuel with
  | O => Loop
  | S fuel =>
      if i <? 64 then
        '(leaf, p) <- crw_leaf (if 0 <? i then snd ts else fst ts) p ;;
        if (leaf =? 0) && negb (i =? 0) then Ok (diffbuf, p)
        else if leaf =? 0xff then crw_block fuel ts (i + 1) diffbuf p
        else
          let i := i + Z.shiftr leaf 4 in
          let len := leaf &&& 15 in
          if len =? 0 then crw_block fuel ts (i + 1) diffbuf p
          else
            '(diff, p) <- crw_diff len p ;;
            diffbuf <- (if i <? 64 then upd diffbuf i diff else Ok diffbuf) ;;
            crw_block fuel ts (i + 1) diffbuf p
      else Ok (diffbuf, p)
  end.
(** crw.rs:232-241: the 64 pixels of a block.  State: (base, pnum, pixels) *)
Definition crw_pixels (width : Z) (diffbuf : list Z) (st : list Z * Z * list Z) : res (list Z * Z * list Z) :=
  rfold (fun i '(base, pnum, pixout) =>
    if width =? 0 then Panic else
    let base := if pnum mod width =? 0 then [512; 512] else base in
    b <- get base (i &&& 1) ;; d <- get diffbuf i ;; b <- i32add b d ;;
    base <- upd base (i &&& 1) b ;;
    pixout <- upd pixout i (as_u16 b) ;;
    Ok (base, pnum + 1, pixout)) (zrange 0 64) st.
(** crw.rs:202-242: the pixels without their low bits *)
Definition crw_high (ts : crwtable * crwtable) (src : list Z) (width height : Z) : res (list Z) :=
  '(_, _, _, _, out) <- rfold (fun pixout '(p, carry, base, pnum, done) =>
      '(diffbuf, p) <- crw_block 65 ts 0 (zeros 64) p ;;
      d <- get diffbuf 0 ;; carry <- i32add d carry ;; diffbuf <- upd diffbuf 0 carry ;;
      '(base, pnum, pixout) <- crw_pixels width diffbuf (base, pnum, pixout) ;;
      Ok (p, carry, base, pnum, done ++ pixout))
    (chunks 64 (zeros (width * height))) (pump_new src, 0, [0; 0], 0, []) ;;
  Ok out.
(** crw.rs:248-257: one pixel with its two low bits; [b] holds those of four pixels *)
Definition crw_low (width o b : Z) : res Z :=
  let v := Z.lor (as_u16 (Z.shiftl o 2)) (b &&& 3) in
  if (width =? 2672) && (v <? 512) then u16add v 2 else Ok v.
(** crw.rs:246-259: four pixels; a shorter last group panics *)
Definition crw_lows (buf : list Z) (width : Z) (out : list Z) : res (list Z) :=
  ls <- mapM (fun '(i, o) =>
    c <- get buf (26 + i) ;;
    o0 <- get o 0 ;; o1 <- get o 1 ;; o2 <- get o 2 ;; o3 <- get o 3 ;;
    mapM (fun '(o, s) => crw_low width o (c >>> s)) [(o0, 0); (o1, 2); (o2, 4); (o3, 6)])
    (enumerate (chunks 4 out)) ;;
  Ok (concat ls).
(** crw.rs:191-262 [decode_compressed] *)
Definition crw_decompress (buf : list Z) (ciff : cifd) (cam : camera) (width height : Z) : res (list Z) :=
  en <- fetch_cifd_tag ciff C_DecoderTable ;; dectable <- cget_u32 en 0 ;;
  if 2 <? dectable then Err "CRW: Unknown decoder table"
  else
    let lowbits := negb (find_hint cam "nolowbits") in
    ts <- crw_tables dectable ;;
    src <- slice_from buf (540 + (if lowbits then 1 else 0) * height * width / 4) ;;
    out <- crw_high ts src width height ;;
    if lowbits then crw_lows buf width out else Ok out.

(** ciff.rs [get_f32] *)
Definition cget_f32 (en : centry) (idx : Z) : res f32 := v <- cget_u32 en idx ;; Ok (f32_of v).
Definition cget_wb (en : centry) (i j k : Z) : res (vec4 f32) :=
  r <- cget_f32 en i ;; g <- cget_f32 en j ;; b <- cget_f32 en k ;; Ok (V4 r g b NAN).
(** crw.rs:175-187: the white balance of ColorInfo1 *)
Definition crw_wb1 (cam : camera) (cinfo : centry) : res (vec4 f32) :=
  if ce_count cinfo =? 768 then
    r <- cget_force_u16 cinfo 36 ;; g <- cget_force_u16 cinfo 37 ;; b <- cget_force_u16 cinfo 39 ;;
    Ok (V4 (fdiv (flit 1024 1) (f32_of r)) (fdiv (flit 1024 1) (f32_of g)) (fdiv (flit 1024 1) (f32_of b)) NAN)
  else
    let off := c_wb_offset cam in
    let '(k0, k1) := if find_hint cam "wb_mangle" then (0x410, 0x45f3) else (0, 0) in
    r <- cget_force_u16 cinfo (off + 1) ;; g <- cget_force_u16 cinfo off ;; b <- cget_force_u16 cinfo (off + 2) ;;
    Ok (V4 (f32_of (Z.lxor r k1)) (f32_of (Z.lxor g k0)) (f32_of (Z.lxor b k0)) NAN).
(** crw.rs:161-189 [get_wb] *)
Definition crw_wb (ciff : cifd) (cam : camera) : res (vec4 f32) :=
  match cfind_entry ciff C_WhiteBalance with
  | Some levels => let o := c_wb_offset cam in cget_wb levels o (o + 1) (o + 3)
  | None =>
      match (if find_hint cam "nocinfo2" then None else cfind_entry ciff C_ColorInfo2) with
      | Some cinfo =>
          v <- cget_u32 cinfo 0 ;;
          if 512 <? v then
            r <- cget_f32 cinfo 62 ;; g <- cget_f32 cinfo 63 ;; b <- cget_f32 cinfo 60 ;; e <- cget_f32 cinfo 61 ;; Ok (V4 r g b e)
          else
            r <- cget_f32 cinfo 51 ;; g1 <- cget_f32 cinfo 50 ;; g2 <- cget_f32 cinfo 53 ;; b <- cget_f32 cinfo 52 ;;
            Ok (V4 r (fdiv (fadd g1 g2) (flit 2 1)) b NAN)
      | None => match cfind_entry ciff C_ColorInfo1 with Some cinfo => crw_wb1 cam cinfo | None => Ok nans end
      end
  end.
(** crw.rs:139-157 [image] *)
Definition crw_image (l : loader) (buf : list Z) (ciff : cifd) : res (rawimage f32) :=
  en <- fetch_cifd_tag ciff C_MakeModel ;;
  match cget_strings en with
  | make :: model :: _ =>
      camera <- check_supported_with_everything l (str_of make) (str_of model) "" ;;
      '(width, height, image) <-
        (if String.eqb (c_model camera) "Canon PowerShot Pro70" then
           src <- slice_from buf 26 ;; image <- decode_10le_lsb16 src 1552 1024 ;; Ok (1552, 1024, image)
         else
           info <- fetch_cifd_tag ciff C_SensorInfo ;;
           width <- cget_u32 info 1 ;; height <- cget_u32 info 2 ;;
           image <- crw_decompress buf ciff camera width height ;; Ok (width, height, image)) ;;
      wb <- crw_wb ciff camera ;;
      ok_image camera width height wb image
  | _ => Err "CRW: MakeModel tag needs to have 2 strings"
  end.
End Crw.
