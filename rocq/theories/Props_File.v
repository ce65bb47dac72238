(** C53: whole files.  A file that is written as the cameras do, with the fields
    of the directory in any order, decodes to the picture that went into it, with
    the size, the orientation, the white balance and the black levels that the
    fields tell and the rest from the camera database.

    All files here have one directory and come from cameras whose pictures have no
    masked areas.  [photo] says so. *)
From Coq Require Import String Ascii ZArith List Bool Reals Lia.
From Verif Require Import Base Num F32 Tiff Transform Image Camera Clients Dispatch.
From Verif Require Import Spec_Bits Spec_Image Spec_Stream Spec_Packed Spec_Tiff Spec_Camera Spec_Known Spec_Huffman Spec_Ljpeg Spec_Pred Spec_Orf Spec_Nikon Spec_Curve Spec_Pana Spec_Meta Spec_File.
From Verif Require Import P_Srw3b P_Crw4 P_File2 P_File3 P_File4 P_File5 Props_Pred Props_Pred3.
Import ListNotations.
Local Open Scope Z_scope.

(** Mamiya: samples of 12 bits, packed. *)
Theorem C53_mamiya : forall (M : Mode) powf parse_f32 db l, loader_new db = Ok l -> 
  forall big fs model gap samples rest file w h o cam,
  photo l "" big fs "Mamiya-OP Co.,Ltd." model T_StripOffsets gap (pack 12 samples ++ rest) file o cam ->
  In T_CFAPattern (map f_tag fs) -> has_number fs T_ImageWidth w -> has_number fs T_ImageLength h -> 0 < w -> Z.even w = true -> Z.of_nat (length samples) = w * h -> Forall (Spec_Packed.fits 12) samples ->
  exists img, lib_decode powf parse_f32 db file = Ok img /\ shows img cam o w h /\ i_data img = samples /\ i_blacks img = c_blacks cam.
Proof. exact @mef_file. Qed.
Print Assumptions C53_mamiya.
Definition mamiya_fields : list field := [mkfield T_ImageWidth 3 [4]; mkfield T_ImageLength 4 [2]; text_field T_Make "Mamiya-OP Co.,Ltd."; text_field T_Model "ZD";
  mkfield T_StripOffsets 4 [106]; mkfield T_CFAPattern 1 [0; 1; 1; 2]].
Definition mamiya_samples : list Z := [291; 1110; 1929; 2748; 3840; 460; 1383; 2202].
Example C53_mamiya_ex : forall (M : Mode) powf parse_f32, exists img cam,
  lib_decode powf parse_f32 (one_camera "Mamiya-OP Co.,Ltd." "ZD" "") (tiff_file true mamiya_fields ++ [9] ++ pack 12 mamiya_samples ++ [7]) = Ok img /\
  shows img cam Unknown 4 2 /\ i_data img = mamiya_samples.
Proof.
  intros M powf parse_f32. destruct (camera_check M (one_camera "Mamiya-OP Co.,Ltd." "ZD" "") "Mamiya-OP Co.,Ltd." "ZD" "") as (l & cam & H1 & H2 & H3 & _); [destruct M; lazy; reflexivity|].
  destruct (C53_mamiya M powf parse_f32 _ l H1 true mamiya_fields "ZD" [9] mamiya_samples [7] (tiff_file true mamiya_fields ++ [9] ++ pack 12 mamiya_samples ++ [7]) 4 2 Unknown cam)
    as (img & E1 & E2 & E3 & _); [photograph|member|number|number|lia|reflexivity|reflexivity|small_samples|].
  exists img, cam. auto.
Qed.

(** Pentax: samples of 16 bits, or packed samples of 12 bits. *)
Theorem C53_pentax : forall (M : Mode) powf parse_f32 db l, loader_new db = Ok l -> 
  forall big fs make model gap data file w h o cam samples rest r g1 g2 b blacks, In make ["PENTAX"; "PENTAX Corporation"; "RICOH IMAGING COMPANY, LTD."]%string ->
  photo l "" big fs make model T_StripOffsets gap data file o cam ->
  has_number fs T_ImageWidth w -> has_number fs T_ImageLength h -> 0 < w -> Z.of_nat (length samples) = w * h ->
  has_number fs T_Compression 1 /\ data = pack16 true samples ++ rest /\ Forall (Spec_Packed.fits 16) samples \/
  has_number fs T_Compression 32773 /\ data = pack 12 samples ++ rest /\ Forall (Spec_Packed.fits 12) samples /\ Z.even w = true ->
  has_numbers fs T_PefWB [r; g1; g2; b] ->
  has_no fs T_PefBlackLevels /\ blacks = c_blacks cam \/
   (exists b0 b1 b2 b3, has_numbers fs T_PefBlackLevels [b0; b1; b2; b3] /\ Forall (fun v => v < 2 ^ 16) [b0; b1; b2; b3] /\ blacks = V4 b0 b1 b2 b3) ->
  exists img, lib_decode powf parse_f32 db file = Ok img /\ shows img cam o w h /\ i_data img = samples /\ i_blacks img = blacks /\ balance img r g1 b.
Proof. exact @pef_file. Qed.
Print Assumptions C53_pentax.
Definition pentax_fields (compression at_ : Z) : list field := [mkfield T_ImageWidth 3 [4]; mkfield T_ImageLength 4 [2]; mkfield T_Compression 3 [compression]; text_field T_Make "PENTAX";
  text_field T_Model "K-7"; mkfield T_StripOffsets 4 [at_]; mkfield T_Orientation 3 [6]; mkfield T_PefBlackLevels 3 [64; 65; 66; 67]; mkfield T_PefWB 3 [8192; 4096; 4096; 6000]].
Example C53_pentax_ex : forall (M : Mode) powf parse_f32, exists img cam,
  lib_decode powf parse_f32 (one_camera "PENTAX" "K-7" "") (tiff_file true (pentax_fields 1 145) ++ [] ++ pack16 true mamiya_samples ++ []) = Ok img /\
  shows img cam Rotate90 4 2 /\ i_data img = mamiya_samples /\ i_blacks img = V4 64 65 66 67 /\ balance img 8192 4096 6000.
Proof.
  intros M powf parse_f32. destruct (camera_check M (one_camera "PENTAX" "K-7" "") "PENTAX" "K-7" "") as (l & cam & H1 & H2 & H3 & _); [destruct M; lazy; reflexivity|].
  destruct (C53_pentax M powf parse_f32 _ l H1 true (pentax_fields 1 145) "PENTAX" "K-7" [] (pack16 true mamiya_samples ++ [])
    (tiff_file true (pentax_fields 1 145) ++ [] ++ pack16 true mamiya_samples ++ []) 4 2 Rotate90 cam mamiya_samples [] 8192 4096 4096 6000 (V4 64 65 66 67))
    as (img & E); [cbn; auto|turned 6|number|number|lia|reflexivity|left; split; [number|split; [reflexivity|small_samples]]|numbers| |].
  - right. exists 64, 65, 66, 67. split; [numbers|]. split; [repeat (apply Forall_cons; [lia|]); constructor|reflexivity].
  - exists img, cam. exact E.
Qed.

(** Pentax, compressed with the code of the older cameras. *)
Theorem C53_pentax_compressed : forall (M : Mode) powf parse_f32 db l, loader_new db = Ok l -> 
  forall big fs make model gap data file w h o cam pic rest r g1 g2 b blacks, In make ["PENTAX"; "PENTAX Corporation"; "RICOH IMAGING COMPANY, LTD."]%string ->
  photo l "" big fs make model T_StripOffsets gap data file o cam ->
  has_number fs T_ImageWidth w -> has_number fs T_ImageLength h -> 0 < w -> Z.even w = true ->
  has_number fs T_Compression 65535 -> has_no fs T_PefHuffman ->
  sample_picture pic w h -> (forall r c, 0 <= r < h -> 0 <= c < w -> Z.abs (step_of (fun _ _ => 0) pic r c) < 4096) ->
  bits_of data = steps_coded (fun _ => code_of pentax_code) (fun _ _ => 0) pic w h ++ rest ->
  has_numbers fs T_PefWB [r; g1; g2; b] ->
  has_no fs T_PefBlackLevels /\ blacks = c_blacks cam \/
   (exists b0 b1 b2 b3, has_numbers fs T_PefBlackLevels [b0; b1; b2; b3] /\ Forall (fun v => v < 2 ^ 16) [b0; b1; b2; b3] /\ blacks = V4 b0 b1 b2 b3) ->
  exists img, lib_decode powf parse_f32 db file = Ok img /\ shows img cam o w h /\ is_image (i_data img) w h pic /\ i_blacks img = blacks /\ balance img r g1 b.
Proof. exact @pef_compressed_file. Qed.
Print Assumptions C53_pentax_compressed.
Definition pentax_data : list Z := [251; 39; 253; 244; 53; 95; 173; 127; 223; 76; 158].
Example C53_pentax_compressed_ex : forall (M : Mode) powf parse_f32, exists img cam,
  lib_decode powf parse_f32 (one_camera "PENTAX" "K-7" "") (tiff_file false (pentax_fields 65535 145) ++ [] ++ pentax_data) = Ok img /\
  shows img cam Rotate90 4 2 /\ is_image (i_data img) 4 2 ex_picture /\ i_blacks img = V4 64 65 66 67 /\ balance img 8192 4096 6000.
Proof.
  intros M powf parse_f32. destruct (camera_check M (one_camera "PENTAX" "K-7" "") "PENTAX" "K-7" "") as (l & cam & H1 & H2 & H3 & _); [destruct M; lazy; reflexivity|].
  destruct (C53_pentax_compressed M powf parse_f32 _ l H1 false (pentax_fields 65535 145) "PENTAX" "K-7" [] pentax_data
    (tiff_file false (pentax_fields 65535 145) ++ [] ++ pentax_data) 4 2 Rotate90 cam ex_picture [] 8192 4096 4096 6000 (V4 64 65 66 67))
    as (img & E); [cbn; auto|turned 6|number|number|lia|reflexivity|number|absent|exact ex_samples|each_pixel; vm_compute; reflexivity|vm_compute; reflexivity|numbers| |].
  - right. exists 64, 65, 66, 67. split; [numbers|]. split; [repeat (apply Forall_cons; [lia|]); constructor|reflexivity].
  - exists img, cam. exact E.
Qed.

(** Olympus: samples of 12 bits, each in the upper part of two bytes. *)
Theorem C53_olympus : forall (M : Mode) powf parse_f32 db l, loader_new db = Ok l -> 
  forall big fs make model gap data file w h o cam samples rest counts r r' b b',
  In make ["OLYMPUS IMAGING CORP."; "OLYMPUS CORPORATION"; "OLYMPUS OPTICAL CO.,LTD"]%string ->
  photo l "" big fs make model T_StripOffsets gap data file o cam ->
  has_number fs T_ImageWidth w -> has_number fs T_ImageLength h -> 0 < w ->
  has_numbers fs T_StripByteCounts counts -> 2 * w * h <= total counts ->
  data = pack16 big (map (fun v => 16 * v) samples) ++ rest -> Z.of_nat (length samples) = w * h -> Forall (Spec_Packed.fits 12) samples ->
  has_numbers fs T_OlympusRedMul (r :: r') -> has_numbers fs T_OlympusBlueMul (b :: b') ->
  exists img, lib_decode powf parse_f32 db file = Ok img /\ shows img cam o w h /\ i_data img = samples /\ i_blacks img = c_blacks cam /\ balance img r 256 b.
Proof. exact @orf_file. Qed.
Print Assumptions C53_olympus.
Definition olympus_fields (w h at_ counts : Z) : list field := [mkfield T_ImageWidth 3 [w]; mkfield T_ImageLength 4 [h]; text_field T_Make "OLYMPUS IMAGING CORP.";
  text_field T_Model "E-3"; mkfield T_StripOffsets 4 [at_]; mkfield T_StripByteCounts 4 [counts]; mkfield T_OlympusRedMul 3 [430; 256]; mkfield T_OlympusBlueMul 3 [390; 256]].
Example C53_olympus_ex : forall (M : Mode) powf parse_f32, exists img cam,
  lib_decode powf parse_f32 (one_camera "OLYMPUS IMAGING CORP." "E-3" "") (tiff_file false (olympus_fields 4 2 132 16) ++ [] ++ pack16 false (map (fun v => 16 * v) mamiya_samples) ++ []) = Ok img /\
  shows img cam Unknown 4 2 /\ i_data img = mamiya_samples /\ balance img 430 256 390.
Proof.
  intros M powf parse_f32. destruct (camera_check M (one_camera "OLYMPUS IMAGING CORP." "E-3" "") "OLYMPUS IMAGING CORP." "E-3" "") as (l & cam & H1 & H2 & H3 & _); [destruct M; lazy; reflexivity|].
  destruct (C53_olympus M powf parse_f32 _ l H1 false (olympus_fields 4 2 132 16) "OLYMPUS IMAGING CORP." "E-3" [] (pack16 false (map (fun v => 16 * v) mamiya_samples) ++ [])
    (tiff_file false (olympus_fields 4 2 132 16) ++ [] ++ pack16 false (map (fun v => 16 * v) mamiya_samples) ++ []) 4 2 Unknown cam mamiya_samples [] [16] 430 [256] 390 [256])
    as (img & E1 & E2 & E3 & _ & E4); [cbn; auto|photograph|number|number|lia|numbers|vm_compute; discriminate|reflexivity|reflexivity|small_samples|numbers|numbers|].
  exists img, cam. auto.
Qed.

(** Olympus, compressed.  The program takes a strip for compressed that is too short
    for anything else. *)
Theorem C53_olympus_compressed : forall (M : Mode) powf parse_f32 db l, loader_new db = Ok l -> 
  forall big fs make model gap head data file w h o cam pic rest counts r r' b b',
  In make ["OLYMPUS IMAGING CORP."; "OLYMPUS CORPORATION"; "OLYMPUS OPTICAL CO.,LTD"]%string ->
  photo l "" big fs make model T_StripOffsets gap (head ++ data) file o cam ->
  has_number fs T_ImageWidth w -> has_number fs T_ImageLength h -> 0 < w < 2 ^ 31 -> w mod 2 = 0 ->
  has_numbers fs T_StripByteCounts counts -> total counts < w * h / 10 * 16 -> total counts < w * h * 12 / 8 ->
  (forall r c, 0 <= r < h -> 0 <= c < w -> 0 <= pic r c < 2 ^ 15) -> orf_fits pic w h ->
  length head = 7%nat -> bits_of data = orf_coded pic w h ++ rest ->
  has_numbers fs T_OlympusRedMul (r :: r') -> has_numbers fs T_OlympusBlueMul (b :: b') ->
  exists img, lib_decode powf parse_f32 db file = Ok img /\ shows img cam o w h /\ is_image (i_data img) w h pic /\ i_blacks img = c_blacks cam /\ balance img r 256 b.
Proof. exact @orf_compressed_file. Qed.
Print Assumptions C53_olympus_compressed.
Definition smooth_picture (r c : Z) : Z := 40 + (r * 5 + c * 3) mod 7.
Definition smooth_data : list Z := [26; 122; 81; 240; 240; 112; 113; 199; 22; 115; 199; 28; 113; 197; 156; 241; 195; 179; 175; 31; 7; 5; 39; 60; 113; 199; 28; 89; 207; 28;
  113; 199; 22; 112; 112; 144; 48; 112; 48; 112; 197; 164; 49; 195; 28; 49; 105; 12; 112; 201; 7; 7; 3; 5; 41; 3; 28; 49; 195; 22; 144; 199; 12; 112; 197; 164].
Example C53_olympus_compressed_ex : forall (M : Mode) powf parse_f32, exists img cam,
  lib_decode powf parse_f32 (one_camera "OLYMPUS IMAGING CORP." "E-3" "") (tiff_file false (olympus_fields 20 4 132 73) ++ [] ++ [0; 0; 0; 0; 0; 0; 0] ++ smooth_data) = Ok img /\
  shows img cam Unknown 20 4 /\ is_image (i_data img) 20 4 smooth_picture /\ balance img 430 256 390.
Proof.
  intros M powf parse_f32. destruct (camera_check M (one_camera "OLYMPUS IMAGING CORP." "E-3" "") "OLYMPUS IMAGING CORP." "E-3" "") as (l & cam & H1 & H2 & H3 & _); [destruct M; lazy; reflexivity|].
  destruct (C53_olympus_compressed M powf parse_f32 _ l H1 false (olympus_fields 20 4 132 73) "OLYMPUS IMAGING CORP." "E-3" [] [0; 0; 0; 0; 0; 0; 0] smooth_data
    (tiff_file false (olympus_fields 20 4 132 73) ++ [] ++ [0; 0; 0; 0; 0; 0; 0] ++ smooth_data) 20 4 Unknown cam smooth_picture [] [73] 430 [256] 390 [256])
    as (img & E1 & E2 & E3 & _ & E4); [cbn; auto|photograph|number|number|lia|reflexivity|numbers|vm_compute; reflexivity|vm_compute; reflexivity| | |reflexivity|vm_compute; reflexivity|numbers|numbers|].
  - intros r c _ _. unfold smooth_picture. pose proof (Z.mod_pos_bound (r * 5 + c * 3) 7 ltac:(lia)). lia.
  - intros r c Hr Hc.
    assert (forall r, 0 <= r < 4 -> forallb (fun c => let '(_, mean, _) := orf_before smooth_picture r c in orf_distance mean (orf_residual smooth_picture r c) <? 2 ^ 15) (upto 20) = true) as H.
    { apply upto_all. vm_compute. reflexivity. }
    pose proof (upto_all 20 _ (H r Hr) c Hc) as Q. cbv beta in Q. destruct (orf_before smooth_picture r c) as [[a b] d]. apply Z.ltb_lt. exact Q.
  - exists img, cam. auto.
Qed.

(** Nikon: samples of 12 or 14 bits. *)
Theorem C53_nikon : forall (M : Mode) powf parse_f32 db l, loader_new db = Ok l -> 
  forall big fs model gap file w h o cam samples rest bps size ra rb ba bb more, bps = 12 \/ bps = 14 ->
  photo l (nikon_mode bps) big fs "NIKON CORPORATION" model T_StripOffsets gap (nikon_data big bps samples ++ rest) file o cam -> c_model cam <> "NIKON D100"%string ->
  In T_CFAPattern (map f_tag fs) -> has_number fs T_ImageWidth w -> has_number fs T_ImageLength h -> has_number fs T_BitsPerSample bps ->
  has_number fs T_Compression 1 -> has_number fs T_StripByteCounts size ->
  0 < w -> (bps = 12 -> Z.even w = true) -> Z.of_nat (length samples) = w * h -> Forall (Spec_Packed.fits (Z.to_nat bps)) samples ->
  has_fractions big fs T_NefWB0 ((ra, rb) :: (ba, bb) :: more) ->
  exists img, lib_decode powf parse_f32 db file = Ok img /\ shows img cam o w h /\ i_data img = samples /\ i_blacks img = c_blacks cam /\
    reads_fraction (e0 (i_wb img)) ra rb /\ nearest (e1 (i_wb img)) (IZR 1) /\ reads_fraction (e2 (i_wb img)) ba bb.
Proof. exact @nef_file. Qed.
Print Assumptions C53_nikon.
Definition nikon_fields (compression bps at_ size : Z) (note : list Z) : list field := [mkfield T_ImageWidth 3 [4]; mkfield T_ImageLength 4 [2]; mkfield T_BitsPerSample 3 [bps];
  mkfield T_Compression 3 [compression]; text_field T_Make "NIKON CORPORATION"; text_field T_Model "NIKON D3"; mkfield T_StripOffsets 4 [at_]; mkfield T_StripByteCounts 4 [size];
  mkfield T_CFAPattern 1 [0; 1; 1; 2]; mkfield T_NefWB0 5 (map (fraction false) [(500, 256); (350, 256); (1, 1); (1, 1)]); mkfield T_NefMeta1 7 note].
Definition nikon_samples : list Z := [291; 11100; 1929; 2748; 3840; 460; 16383; 2202].
Example C53_nikon_ex : forall (M : Mode) powf parse_f32, exists img cam,
  lib_decode powf parse_f32 (one_camera "NIKON CORPORATION" "NIKON D3" "14bit") (tiff_file false (nikon_fields 1 14 205 16 [1]) ++ [] ++ pack16 false nikon_samples ++ []) = Ok img /\
  shows img cam Unknown 4 2 /\ i_data img = nikon_samples /\ reads_fraction (e0 (i_wb img)) 500 256.
Proof.
  intros M powf parse_f32. destruct (camera_check M (one_camera "NIKON CORPORATION" "NIKON D3" "14bit") "NIKON CORPORATION" "NIKON D3" "14bit") as (l & cam & H1 & H2 & H3 & H4); [destruct M; lazy; reflexivity|].
  destruct (C53_nikon M powf parse_f32 _ l H1 false (nikon_fields 1 14 205 16 [1]) "NIKON D3" []
    (tiff_file false (nikon_fields 1 14 205 16 [1]) ++ [] ++ pack16 false nikon_samples ++ []) 4 2 Unknown cam nikon_samples [] 14 16 500 256 350 256 [(1, 1); (1, 1)])
    as (img & E1 & E2 & E3 & _ & E4 & _);
    [auto|photograph|rewrite H4; discriminate|member|number|number|number|number|number|lia|discriminate|reflexivity|small_samples|fractions|].
  exists img, cam. auto.
Qed.

(** Nikon, compressed.  The picture is the one that is stored after the tone curve,
    but the program adds noise where the curve is steep ([toned_picture]).  Missing:
    rows after the change of code, which C47 refutes. *)
Theorem C53_nikon_compressed_partial : forall (M : Mode) powf parse_f32 db l, loader_new db = Ok l -> 
  forall big fs model gap file w h o cam data rest (bits14 : bool) size ra rb ba bb more v0 v1 skipped x1 x2 x3 x4 points tail curve pic,
  let bps := if bits14 then 14 else 12 in
  let note := nikon_note big v0 v1 skipped x1 x2 x3 x4 points tail in
  let start := nikon_start x1 x2 x3 x4 in
  photo l (nikon_mode bps) big fs "NIKON CORPORATION" model T_StripOffsets gap data file o cam -> c_model cam <> "NIKON D100"%string ->
  In T_CFAPattern (map f_tag fs) -> has_number fs T_ImageWidth w -> has_number fs T_ImageLength h -> has_number fs T_BitsPerSample bps ->
  has_number fs T_Compression 34713 -> has_number fs T_StripByteCounts size -> w * h * 14 < 2 ^ 64 -> size <> w * h * bps / 8 -> size <> w * h * 3 ->
  0 < w -> Z.even w = true ->
  In (mkfield T_NefMeta1 7 note) fs -> has_no fs T_NefMeta2 -> bytes note ->
  Z.of_nat (length skipped) = nikon_skipped v0 v1 -> sample x1 -> sample x2 -> sample x3 -> sample x4 -> samples points -> Z.of_nat (length points) < 65536 ->
  nikon_curve v0 v1 bps points curve -> increasing curve -> not_too_steep curve ->
  (v0 = 68 -> v1 = 32 -> 564 <= Z.of_nat (length note)) -> nikon_second big v0 v1 note = 0 \/ h <= nikon_second big v0 v1 note ->
  (forall r c, 0 <= r < h -> 0 <= c < w -> 0 <= pic r c < Z.of_nat (length curve) /\ Z.abs (step_of start pic r c) < 2 ^ bps) ->
  bits_of data = steps_coded (fun _ => code_of (nikon_code bits14 (v0 =? 70))) start pic w h ++ rest ->
  has_fractions big fs T_NefWB0 ((ra, rb) :: (ba, bb) :: more) ->
  exists img, lib_decode powf parse_f32 db file = Ok img /\ shows img cam o w h /\
    is_image (i_data img) w h (toned_picture curve pic w (Spec_Bits.number (firstn 24 (bits_of data ++ repeat false 24)))) /\ i_blacks img = c_blacks cam /\
    reads_fraction (e0 (i_wb img)) ra rb /\ nearest (e1 (i_wb img)) (IZR 1) /\ reads_fraction (e2 (i_wb img)) ba bb.
Proof. exact @nef_compressed_file. Qed.
Print Assumptions C53_nikon_compressed_partial.
Definition nikon_tones : list Z := nikon_note false 68 16 [] 1 2 3 4 ex_curve [].
Definition nikon_bits : list Z := [251; 175; 125; 247; 191; 123].
Example C53_nikon_compressed_ex : forall (M : Mode) powf parse_f32, exists img cam,
  lib_decode powf parse_f32 (one_camera "NIKON CORPORATION" "NIKON D3" "14bit") (tiff_file false (nikon_fields 34713 14 239 6 nikon_tones) ++ [] ++ nikon_bits) = Ok img /\
  shows img cam Unknown 4 2 /\ is_image (i_data img) 4 2 (toned_picture ex_curve ex_indices 4 16494461).
Proof.
  intros M powf parse_f32. destruct (camera_check M (one_camera "NIKON CORPORATION" "NIKON D3" "14bit") "NIKON CORPORATION" "NIKON D3" "14bit") as (l & cam & H1 & H2 & H3 & H4); [destruct M; lazy; reflexivity|].
  destruct (C53_nikon_compressed_partial M powf parse_f32 _ l H1 false (nikon_fields 34713 14 239 6 nikon_tones) "NIKON D3" []
    (tiff_file false (nikon_fields 34713 14 239 6 nikon_tones) ++ [] ++ nikon_bits) 4 2 Unknown cam nikon_bits [] true 6 500 256 350 256 [(1, 1); (1, 1)]
    68 16 [] 1 2 3 4 ex_curve [] ex_curve ex_indices)
    as (img & E1 & E2 & E3 & _);
    [photograph|rewrite H4; discriminate|member|number|number|number|number|number|reflexivity|discriminate|discriminate|lia|reflexivity|member|absent|
     apply bytes_check; vm_compute; reflexivity|reflexivity|unfold sample; lia|unfold sample; lia|unfold sample; lia|unfold sample; lia| |reflexivity| | | |intros _ Q; discriminate Q|left; reflexivity| |vm_compute; reflexivity|fractions|].
  - apply Forall_forall. intros x Hx. cbn in Hx. unfold sample. lia.
  - right. left. repeat split; try lia. vm_compute. discriminate.
  - intros i j Hi Hj. change (Z.of_nat (length ex_curve)) with 11 in Hj.
    destruct (ex_curve_cases i ltac:(lia)) as [-> |[-> |[-> |[-> |[-> |[-> |[-> |[-> |[-> |[-> | ->]]]]]]]]]];
    destruct (ex_curve_cases j ltac:(lia)) as [-> |[-> |[-> |[-> |[-> |[-> |[-> |[-> |[-> |[-> | ->]]]]]]]]]]; vm_compute; first [discriminate|lia].
  - intros i Hi _. change (Z.of_nat (length ex_curve)) with 11 in Hi.
    destruct (ex_curve_cases i ltac:(lia)) as [-> |[-> |[-> |[-> |[-> |[-> |[-> |[-> |[-> |[-> | ->]]]]]]]]]]; vm_compute; split; first [discriminate|reflexivity].
  - each_pixel; (split; [split; vm_compute; first [discriminate|reflexivity]|vm_compute; reflexivity]).
  - exists img, cam. split; [exact E1|]. split; [exact E2|]. exact E3.
Qed.

(** Panasonic: samples of 12 bits, each in the upper part of two bytes. *)
Theorem C53_panasonic : forall (M : Mode) powf parse_f32 db l, loader_new db = Ok l -> 
  forall big fs make model gap file w h o cam samples rest r b, panasonic_make make ->
  photo l (aspect w h) big fs make model T_StripOffsets gap (pack16 false (map (fun v => 16 * v) samples) ++ rest) file o cam ->
  has_no fs T_PanaOffsets -> has_number fs T_PanaWidth w -> has_number fs T_PanaLength h -> 0 < w -> 0 < h ->
  Z.of_nat (length samples) = w * h -> Forall (Spec_Packed.fits 12) samples ->
  has_number fs T_PanaWBsR r -> has_number fs T_PanaWBsB b ->
  exists img, lib_decode powf parse_f32 db file = Ok img /\ shows img cam o w h /\ i_data img = samples /\ i_blacks img = c_blacks cam /\ balance img r 256 b.
Proof. exact @rw2_file. Qed.
Print Assumptions C53_panasonic.
Definition panasonic_fields (tag w h at_ : Z) : list field := [mkfield T_PanaWidth 3 [w]; mkfield T_PanaLength 3 [h]; mkfield tag 4 [at_];
  text_field T_Make "Panasonic"; text_field T_Model "DMC-G1"; mkfield T_PanaWBsR 3 [520]; mkfield T_PanaWBsB 3 [377]].
Example C53_panasonic_ex : forall (M : Mode) powf parse_f32, exists img cam,
  lib_decode powf parse_f32 (one_camera "Panasonic" "DMC-G1" "16:9") (tiff_file false (panasonic_fields T_StripOffsets 4 2 115) ++ [] ++ pack16 false (map (fun v => 16 * v) mamiya_samples) ++ []) = Ok img /\
  shows img cam Unknown 4 2 /\ i_data img = mamiya_samples /\ balance img 520 256 377.
Proof.
  intros M powf parse_f32. destruct (camera_check M (one_camera "Panasonic" "DMC-G1" "16:9") "Panasonic" "DMC-G1" "16:9") as (l & cam & H1 & H2 & H3 & _); [destruct M; lazy; reflexivity|].
  destruct (C53_panasonic M powf parse_f32 _ l H1 false (panasonic_fields T_StripOffsets 4 2 115) "Panasonic" "DMC-G1" []
    (tiff_file false (panasonic_fields T_StripOffsets 4 2 115) ++ [] ++ pack16 false (map (fun v => 16 * v) mamiya_samples) ++ []) 4 2 Unknown cam mamiya_samples [] 520 377)
    as (img & E1 & E2 & E3 & _ & E4); [cbn; auto|photograph|absent|number|number|lia|lia|reflexivity|small_samples|number|number|].
  exists img, cam. auto.
Qed.

(** Panasonic, compressed. *)
Theorem C53_panasonic_compressed : forall (M : Mode) powf parse_f32 db l, loader_new db = Ok l -> 
  forall big fs make model gap data file w h o cam pic choice byte r b, panasonic_make make ->
  photo l (aspect w h) big fs make model T_StripOffsets gap data file o cam ->
  has_no fs T_PanaOffsets -> has_number fs T_PanaWidth w -> has_number fs T_PanaLength h -> 0 < w -> 0 < h -> w mod 14 = 0 ->
  16 * (w / 14 * h) <= zlen data -> zlen data + 16 < w * h * 3 / 2 ->
  (forall g, 0 <= g < w / 14 * h -> pana_group_fits (choice g) (byte g) (pana_values pic w g) /\
     bits_of (pana_group_bytes false data g) = pana_group_coded (choice g) (byte g) (pana_values pic w g)) ->
  has_number fs T_PanaWBsR r -> has_number fs T_PanaWBsB b ->
  exists img, lib_decode powf parse_f32 db file = Ok img /\ shows img cam o w h /\ is_image (i_data img) w h pic /\ i_blacks img = c_blacks cam /\ balance img r 256 b.
Proof. exact @rw2_compressed_file. Qed.
Print Assumptions C53_panasonic_compressed.
Definition four_rows : list Z := firstn 32 panasonic_data ++ repeat 0 32.
Example C53_panasonic_compressed_ex : forall (M : Mode) powf parse_f32, exists img cam,
  lib_decode powf parse_f32 (one_camera "Panasonic" "DMC-G1" "16:9") (tiff_file false (panasonic_fields T_StripOffsets 14 4 115) ++ [] ++ four_rows) = Ok img /\
  shows img cam Unknown 14 4 /\ is_image (i_data img) 14 4 panasonic_picture /\ balance img 520 256 377.
Proof.
  intros M powf parse_f32. destruct (camera_check M (one_camera "Panasonic" "DMC-G1" "16:9") "Panasonic" "DMC-G1" "16:9") as (l & cam & H1 & H2 & H3 & _); [destruct M; lazy; reflexivity|].
  destruct (C53_panasonic_compressed M powf parse_f32 _ l H1 false (panasonic_fields T_StripOffsets 14 4 115) "Panasonic" "DMC-G1" [] four_rows
    (tiff_file false (panasonic_fields T_StripOffsets 14 4 115) ++ [] ++ four_rows) 14 4 Unknown cam panasonic_picture panasonic_choices panasonic_bytes 520 377)
    as (img & E1 & E2 & E3 & _ & E4); [cbn; auto|photograph|absent|number|number|lia|lia|reflexivity|vm_compute; discriminate|vm_compute; reflexivity| |number|number|].
  - change (14 / 14 * 4) with 4. intros g Hg. split; [apply (group_check panasonic_choices panasonic_bytes panasonic_picture 14 4); [vm_compute; reflexivity|exact Hg]|].
    assert (g = 0 \/ g = 1 \/ g = 2 \/ g = 3) as [-> |[-> |[-> | ->]]] by lia; vm_compute; reflexivity.
  - exists img, cam. auto.
Qed.

(** Panasonic, compressed in blocks of 16384 bytes whose two parts are swapped.
    Missing: the group of 14 pixels in each block that spans the two parts, which
    the program decodes wrongly (C47). *)
Theorem C53_panasonic_split_partial : forall (M : Mode) powf parse_f32 db l, loader_new db = Ok l -> 
  forall big fs make model gap data file w h o cam pic choice byte r b, panasonic_make make ->
  photo l (aspect w h) big fs make model T_PanaOffsets gap data file o cam ->
  has_number fs T_PanaWidth w -> has_number fs T_PanaLength h -> 0 < w -> 0 < h -> w mod 14 = 0 ->
  16384 * ((w / 14 * h + 1023) / 1024) <= zlen data ->
  (forall g, 0 <= g < w / 14 * h -> pana_group_fits (choice g) (byte g) (pana_values pic w g) /\
     bits_of (pana_group_bytes true data g) = pana_group_coded (choice g) (byte g) (pana_values pic w g)) ->
  has_number fs T_PanaWBsR r -> has_number fs T_PanaWBsB b ->
  exists img, lib_decode powf parse_f32 db file = Ok img /\ shows img cam o w h /\ zlen (i_data img) = w * h /\
    (forall r c, 0 <= r < h -> 0 <= c < w -> (r * w + c) / 14 mod 1024 <> 512 -> nth (Z.to_nat (r * w + c)) (i_data img) 0 = pic r c) /\
    i_blacks img = c_blacks cam /\ balance img r 256 b.
Proof. exact @rw2_split_file. Qed.
Print Assumptions C53_panasonic_split_partial.
Example C53_panasonic_split_ex : forall (M : Mode) powf parse_f32, exists img cam,
  lib_decode powf parse_f32 (one_camera "Panasonic" "DMC-G1" "16:9") (tiff_file false (panasonic_fields T_PanaOffsets 28 1 115) ++ [] ++ repeat 0 16384) = Ok img /\
  shows img cam Unknown 28 1 /\ nth 27 (i_data img) 1 = 0 /\ balance img 520 256 377.
Proof.
  intros M powf parse_f32. destruct (camera_check M (one_camera "Panasonic" "DMC-G1" "16:9") "Panasonic" "DMC-G1" "16:9") as (l & cam & H1 & H2 & H3 & _); [destruct M; lazy; reflexivity|].
  destruct (C53_panasonic_split_partial M powf parse_f32 _ l H1 false (panasonic_fields T_PanaOffsets 28 1 115) "Panasonic" "DMC-G1" [] (repeat 0 16384)
    (tiff_file false (panasonic_fields T_PanaOffsets 28 1 115) ++ [] ++ repeat 0 16384) 28 1 Unknown cam (fun _ _ => 0) (fun _ _ => 0) (fun _ _ => 0) 520 377)
    as (img & E1 & E2 & E3 & E4 & _ & E5); [cbn; auto| |number|number|lia|lia|reflexivity| | |number|number|].
  - eapply photo_check; [fields|rewrite app_length; cbn [app]; rewrite repeat_length; vm_compute; reflexivity|apply zeros_ok|vm_compute; reflexivity|number|absent|discriminate|absent|assumption|assumption].
  - unfold zlen. rewrite repeat_length. vm_compute. discriminate.
  - change (28 / 14 * 1) with 2. intros g Hg. split; [apply (group_check (fun _ _ => 0) (fun _ _ => 0) (fun _ _ => 0) 28 2); [vm_compute; reflexivity|exact Hg]|].
    rewrite zero_group. vm_compute. reflexivity.
  - exists img, cam. split; [exact E1|]. split; [exact E2|]. split; [|exact E5]. specialize (E4 0 27 ltac:(lia) ltac:(lia)). 
    rewrite <- (E4 ltac:(vm_compute; discriminate)). apply nth_indep. unfold zlen in E3. clear - E3. lia.
Qed.

