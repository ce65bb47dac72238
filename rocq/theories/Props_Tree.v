(** C59: directories one inside another.  Cameras spread the fields over several
    directories: the first one names the camera, one that it points to describes the
    picture, and another holds the maker's note, which is again a directory.  All of
    them can be anywhere in the file.  Every field is found; where several directories
    have the same tag, the first counts, each directory coming before those inside it.
    Files of five makers that are written so decode to the picture that went into
    them, as C53 says of files with one directory. *)
From Coq Require Import String Ascii ZArith List Bool Reals Lia.
From Verif Require Import Base Num F32 Tiff Transform Image Camera Clients Dispatch.
From Verif Require Import Spec_Bits Spec_Image Spec_Stream Spec_Packed Spec_Tiff Spec_Camera Spec_Known Spec_Huffman Spec_Ljpeg Spec_Pred Spec_Orf Spec_Nikon Spec_Curve Spec_Pana Spec_Meta Spec_File Spec_Tree.
From Verif Require Import P_Srw3b P_Crw4 P_File2 P_File5 P_Tree2 P_Tree4 P_Tree5 P_Tree6 Props_Pred Props_Pred3 Props_File.
Import ListNotations.
Local Open Scope Z_scope.

(** Searching: every field that is not hidden by an earlier one is found, with its
    values, and nothing else is; the same holds below the first directory with a tag. *)
Theorem C59_fields : forall (M : Mode),
  forall big ts file, tree_file big ts file ->
  exists root, ifd_new_file (buffer_new file) = Ok root /\
    (forall f, In f (visible ts) -> integer_type (f_typ f) = true -> Forall (fun v => 0 <= v < 256 ^ type_size (f_typ f)) (f_vals f) ->
       exists en, find_entry root (f_tag f) = Some en /\ e_count en = Z.of_nat (length (f_vals f)) /\ forall k v, nth_error (f_vals f) k = Some v -> get_u32 en (Z.of_nat k) = Ok v) /\
    (forall tag, has_no (visible ts) tag -> find_entry root tag = None) /\
    (forall tag t, directory_with ts tag t -> exists i, find_first_ifd root tag = Some i /\
       (forall f, In f (visible [t]) -> integer_type (f_typ f) = true -> Forall (fun v => 0 <= v < 256 ^ type_size (f_typ f)) (f_vals f) ->
          exists en, find_entry i (f_tag f) = Some en /\ e_count en = Z.of_nat (length (f_vals f)) /\ forall k v, nth_error (f_vals f) k = Some v -> get_u32 en (Z.of_nat k) = Ok v) /\
       (forall tag, has_no (visible [t]) tag -> find_entry i tag = None)).
Proof. exact @tree_fields. Qed.
Print Assumptions C59_fields.
Definition two_widths := lay_out true AsPentax [mkfield T_Orientation 3 [6]] (fun at_ => [mkfield T_ImageWidth 3 [4]; mkfield T_StripOffsets 4 [at_]]) [mkfield T_ImageWidth 3 [9]; mkfield T_PefWB 3 [8192; 4096; 4096; 6000]].
Example C59_fields_ex : forall (M : Mode), exists root e1 e2, ifd_new_file (buffer_new (fst two_widths)) = Ok root /\
  find_entry root T_ImageWidth = Some e1 /\ get_u32 e1 0 = Ok 4 /\ find_entry root T_PefWB = Some e2 /\ get_u32 e2 3 = Ok 6000 /\ find_entry root T_Make = None.
Proof.
  intros M. destruct (C59_fields M true (map tree_of (snd two_widths)) (fst two_widths ++ [])) as (root & E & F & N & _).
  - apply is_head_ok; [vm_compute; reflexivity|reflexivity|constructor].
  - rewrite app_nil_r in E. destruct (F (mkfield T_ImageWidth 3 [4])) as (e1 & A1 & _ & A2); [member|reflexivity|repeat constructor; lia|].
    destruct (F (mkfield T_PefWB 3 [8192; 4096; 4096; 6000])) as (e2 & B1 & _ & B2); [member|reflexivity|repeat constructor; lia|].
    exists root, e1, e2. split; [exact E|]. split; [exact A1|]. split; [exact (A2 0%nat 4 eq_refl)|]. split; [exact B1|]. split; [exact (B2 3%nat 6000 eq_refl)|]. apply N. absent.
Qed.

(** Mamiya: samples of 12 bits, packed. *)
Theorem C59_mamiya : forall (M : Mode) powf parse_f32 db l, loader_new db = Ok l ->
  forall big ts raw model samples rest file w h o cam,
  nested_photo l "" big ts "Mamiya-OP Co.,Ltd." model file o cam ->
  picture_at ts file T_CFAPattern T_ImageWidth T_ImageLength T_StripOffsets raw w h (pack 12 samples ++ rest) ->
  0 < w -> Z.even w = true -> Z.of_nat (length samples) = w * h -> Forall (Spec_Packed.fits 12) samples ->
  exists img, lib_decode powf parse_f32 db file = Ok img /\ shows img cam o w h /\ i_data img = samples /\ i_blacks img = c_blacks cam.
Proof. exact @mef_nested. Qed.
Print Assumptions C59_mamiya.
Definition mamiya_layout := lay_out true AsPlain [text_field T_Make "Mamiya-OP Co.,Ltd."; text_field T_Model "ZD"]
  (fun at_ => [mkfield T_ImageWidth 3 [4]; mkfield T_ImageLength 4 [2]; mkfield T_StripOffsets 4 [at_]; mkfield T_CFAPattern 1 [0; 1; 1; 2]]) [mkfield T_ImageWidth 3 [9]].
Definition mamiya_head : list Z := Eval vm_compute in fst mamiya_layout.
Definition mamiya_trees : list tree := Eval vm_compute in map tree_of (snd mamiya_layout).
Example C59_mamiya_ex : forall (M : Mode) powf parse_f32, exists img cam,
  lib_decode powf parse_f32 (one_camera "Mamiya-OP Co.,Ltd." "ZD" "") (mamiya_head ++ pack 12 mamiya_samples ++ [7]) = Ok img /\
  shows img cam Unknown 4 2 /\ i_data img = mamiya_samples.
Proof.
  intros M powf parse_f32. destruct (camera_check M (one_camera "Mamiya-OP Co.,Ltd." "ZD" "") "Mamiya-OP Co.,Ltd." "ZD" "") as (l & cam & H1 & H2 & H3 & _); [destruct M; lazy; reflexivity|].
  edestruct (C59_mamiya M powf parse_f32 _ l H1 true mamiya_trees) with (file := mamiya_head ++ pack 12 mamiya_samples ++ [7]) (model := "ZD"%string) (samples := mamiya_samples) (rest := [7]) (w := 4) (h := 2) (o := Unknown) (cam := cam)
    as (img & E1 & E2 & E3 & _); [nested (snd mamiya_layout)|in_place|lia|reflexivity|reflexivity|small_samples|].
  exists img, cam. split; [exact E1|auto].
Qed.

(** Pentax: samples of 16 bits, the upper byte first, or of 12 bits, packed. *)
Theorem C59_pentax : forall (M : Mode) powf parse_f32 db l, loader_new db = Ok l ->
  forall big ts raw make model data file w h o cam samples rest r g1 g2 b blacks, In make ["PENTAX"; "PENTAX Corporation"; "RICOH IMAGING COMPANY, LTD."]%string ->
  nested_photo l "" big ts make model file o cam ->
  picture_at ts file T_StripOffsets T_ImageWidth T_ImageLength T_StripOffsets raw w h data -> 0 < w -> Z.of_nat (length samples) = w * h ->
  has_number (visible [raw]) T_Compression 1 /\ data = pack16 true samples ++ rest /\ Forall (Spec_Packed.fits 16) samples \/
  has_number (visible [raw]) T_Compression 32773 /\ data = pack 12 samples ++ rest /\ Forall (Spec_Packed.fits 12) samples /\ Z.even w = true ->
  has_numbers (visible ts) T_PefWB [r; g1; g2; b] -> pentax_blacks (visible ts) cam blacks ->
  exists img, lib_decode powf parse_f32 db file = Ok img /\ shows img cam o w h /\ i_data img = samples /\ i_blacks img = blacks /\ balance img r g1 b.
Proof. exact @pef_nested. Qed.
Print Assumptions C59_pentax.
Definition pentax_layout (compression : Z) := lay_out true AsAoc [text_field T_Make "PENTAX"; text_field T_Model "K-7"; mkfield T_Orientation 3 [6]]
  (fun at_ => [mkfield T_ImageWidth 3 [4]; mkfield T_ImageLength 4 [2]; mkfield T_Compression 3 [compression]; mkfield T_StripOffsets 4 [at_]])
  [mkfield T_PefBlackLevels 3 [64; 65; 66; 67]; mkfield T_PefWB 3 [8192; 4096; 4096; 6000]].
Definition pentax_head : list Z := Eval vm_compute in fst (pentax_layout 1).
Definition pentax_trees : list tree := Eval vm_compute in map tree_of (snd (pentax_layout 1)).
Lemma pentax_blacks_ex : forall fs cam, has_numbers fs T_PefBlackLevels [64; 65; 66; 67] -> pentax_blacks fs cam (V4 64 65 66 67).
Proof. intros fs cam H. right. exists 64, 65, 66, 67. split; [exact H|]. split; [repeat (apply Forall_cons; [lia|]); constructor|reflexivity]. Qed.
Example C59_pentax_ex : forall (M : Mode) powf parse_f32, exists img cam,
  lib_decode powf parse_f32 (one_camera "PENTAX" "K-7" "") (pentax_head ++ pack16 true mamiya_samples ++ []) = Ok img /\
  shows img cam Rotate90 4 2 /\ i_data img = mamiya_samples /\ i_blacks img = V4 64 65 66 67 /\ balance img 8192 4096 6000.
Proof.
  intros M powf parse_f32. destruct (camera_check M (one_camera "PENTAX" "K-7" "") "PENTAX" "K-7" "") as (l & cam & H1 & H2 & H3 & _); [destruct M; lazy; reflexivity|].
  edestruct (C59_pentax M powf parse_f32 _ l H1 true pentax_trees) with (file := pentax_head ++ pack16 true mamiya_samples ++ []) (data := pack16 true mamiya_samples ++ []) (make := "PENTAX"%string) (model := "K-7"%string) (samples := mamiya_samples) (rest := @nil Z) (w := 4) (h := 2) (o := Rotate90) (cam := cam) (r := 8192) (g1 := 4096) (g2 := 4096) (b := 6000) (blacks := V4 64 65 66 67)
    as (img & E); [cbn; auto|nested_with 6 (snd (pentax_layout 1))|in_place|lia|reflexivity|left; split; [number|split; [reflexivity|small_samples]]|numbers|apply pentax_blacks_ex; numbers|].
  exists img, cam. exact E.
Qed.

(** Pentax, compressed with the code that cameras without a table of their own use. *)
Theorem C59_pentax_compressed : forall (M : Mode) powf parse_f32 db l, loader_new db = Ok l ->
  forall big ts raw make model data file w h o cam pic rest r g1 g2 b blacks, In make ["PENTAX"; "PENTAX Corporation"; "RICOH IMAGING COMPANY, LTD."]%string ->
  nested_photo l "" big ts make model file o cam ->
  picture_at ts file T_StripOffsets T_ImageWidth T_ImageLength T_StripOffsets raw w h data -> 0 < w -> Z.even w = true ->
  has_number (visible [raw]) T_Compression 65535 -> has_no (visible ts) T_PefHuffman ->
  sample_picture pic w h -> (forall r c, 0 <= r < h -> 0 <= c < w -> Z.abs (step_of (fun _ _ => 0) pic r c) < 4096) ->
  bits_of data = steps_coded (fun _ => code_of pentax_code) (fun _ _ => 0) pic w h ++ rest ->
  has_numbers (visible ts) T_PefWB [r; g1; g2; b] -> pentax_blacks (visible ts) cam blacks ->
  exists img, lib_decode powf parse_f32 db file = Ok img /\ shows img cam o w h /\ is_image (i_data img) w h pic /\ i_blacks img = blacks /\ balance img r g1 b.
Proof. exact @pef_compressed_nested. Qed.
Print Assumptions C59_pentax_compressed.
Definition pentax_head' : list Z := Eval vm_compute in fst (pentax_layout 65535).
Definition pentax_trees' : list tree := Eval vm_compute in map tree_of (snd (pentax_layout 65535)).
Example C59_pentax_compressed_ex : forall (M : Mode) powf parse_f32, exists img cam,
  lib_decode powf parse_f32 (one_camera "PENTAX" "K-7" "") (pentax_head' ++ pentax_data) = Ok img /\
  shows img cam Rotate90 4 2 /\ is_image (i_data img) 4 2 ex_picture /\ i_blacks img = V4 64 65 66 67 /\ balance img 8192 4096 6000.
Proof.
  intros M powf parse_f32. destruct (camera_check M (one_camera "PENTAX" "K-7" "") "PENTAX" "K-7" "") as (l & cam & H1 & H2 & H3 & _); [destruct M; lazy; reflexivity|].
  edestruct (C59_pentax_compressed M powf parse_f32 _ l H1 true pentax_trees') with (file := pentax_head' ++ pentax_data) (make := "PENTAX"%string) (model := "K-7"%string) (pic := ex_picture) (rest := @nil bool) (w := 4) (h := 2) (o := Rotate90) (cam := cam) (r := 8192) (g1 := 4096) (g2 := 4096) (b := 6000) (blacks := V4 64 65 66 67)
    as (img & E); [cbn; auto|nested_with 6 (snd (pentax_layout 65535))|in_place|lia|reflexivity|number|absent|exact ex_samples|each_pixel; vm_compute; reflexivity|vm_compute; reflexivity|numbers|apply pentax_blacks_ex; numbers|].
  exists img, cam. exact E.
Qed.

(** Olympus: samples of 12 bits, each in the upper part of two bytes. *)
Theorem C59_olympus : forall (M : Mode) powf parse_f32 db l, loader_new db = Ok l ->
  forall big ts raw make model data file w h o cam samples rest counts r r' b b',
  In make ["OLYMPUS IMAGING CORP."; "OLYMPUS CORPORATION"; "OLYMPUS OPTICAL CO.,LTD"]%string ->
  nested_photo l "" big ts make model file o cam ->
  picture_at ts file T_StripOffsets T_ImageWidth T_ImageLength T_StripOffsets raw w h data -> 0 < w ->
  has_numbers (visible [raw]) T_StripByteCounts counts -> 2 * w * h <= total counts ->
  data = pack16 big (map (fun v => 16 * v) samples) ++ rest -> Z.of_nat (length samples) = w * h -> Forall (Spec_Packed.fits 12) samples ->
  has_numbers (visible ts) T_OlympusRedMul (r :: r') -> has_numbers (visible ts) T_OlympusBlueMul (b :: b') ->
  exists img, lib_decode powf parse_f32 db file = Ok img /\ shows img cam o w h /\ i_data img = samples /\ i_blacks img = c_blacks cam /\ balance img r 256 b.
Proof. exact @orf_nested. Qed.
Print Assumptions C59_olympus.
Definition olympus_layout (m : maker) (w h counts : Z) := lay_out false m [text_field T_Make "OLYMPUS IMAGING CORP."; text_field T_Model "E-3"]
  (fun at_ => [mkfield T_ImageWidth 3 [w]; mkfield T_ImageLength 4 [h]; mkfield T_StripOffsets 4 [at_]; mkfield T_StripByteCounts 4 [counts]])
  [mkfield T_OlympusRedMul 3 [430; 256]; mkfield T_OlympusBlueMul 3 [390; 256]].
Definition olympus_head : list Z := Eval vm_compute in fst (olympus_layout AsOlympus 4 2 16).
Definition olympus_trees : list tree := Eval vm_compute in map tree_of (snd (olympus_layout AsOlympus 4 2 16)).
Example C59_olympus_ex : forall (M : Mode) powf parse_f32, exists img cam,
  lib_decode powf parse_f32 (one_camera "OLYMPUS IMAGING CORP." "E-3" "") (olympus_head ++ pack16 false (map (fun v => 16 * v) mamiya_samples) ++ []) = Ok img /\
  shows img cam Unknown 4 2 /\ i_data img = mamiya_samples /\ balance img 430 256 390.
Proof.
  intros M powf parse_f32. destruct (camera_check M (one_camera "OLYMPUS IMAGING CORP." "E-3" "") "OLYMPUS IMAGING CORP." "E-3" "") as (l & cam & H1 & H2 & H3 & _); [destruct M; lazy; reflexivity|].
  edestruct (C59_olympus M powf parse_f32 _ l H1 false olympus_trees) with (file := olympus_head ++ pack16 false (map (fun v => 16 * v) mamiya_samples) ++ []) (data := pack16 false (map (fun v => 16 * v) mamiya_samples) ++ []) (make := "OLYMPUS IMAGING CORP."%string) (model := "E-3"%string) (samples := mamiya_samples) (rest := @nil Z) (counts := [16]) (r := 430) (b := 390) (r' := [256]) (b' := [256]) (w := 4) (h := 2) (o := Unknown) (cam := cam)
    as (img & E1 & E2 & E3 & _ & E4); [cbn; auto|nested (snd (olympus_layout AsOlympus 4 2 16))|in_place|lia|numbers|vm_compute; discriminate|reflexivity|reflexivity|small_samples|numbers|numbers|].
  exists img, cam. split; [exact E1|auto].
Qed.

(** Olympus, compressed. *)
Theorem C59_olympus_compressed : forall (M : Mode) powf parse_f32 db l, loader_new db = Ok l ->
  forall big ts raw make model head data file w h o cam pic rest counts r r' b b',
  In make ["OLYMPUS IMAGING CORP."; "OLYMPUS CORPORATION"; "OLYMPUS OPTICAL CO.,LTD"]%string ->
  nested_photo l "" big ts make model file o cam ->
  picture_at ts file T_StripOffsets T_ImageWidth T_ImageLength T_StripOffsets raw w h (head ++ data) -> 0 < w < 2 ^ 31 -> w mod 2 = 0 ->
  has_numbers (visible [raw]) T_StripByteCounts counts -> total counts < w * h / 10 * 16 -> total counts < w * h * 12 / 8 ->
  (forall r c, 0 <= r < h -> 0 <= c < w -> 0 <= pic r c < 2 ^ 15) -> orf_fits pic w h ->
  length head = 7%nat -> bits_of data = orf_coded pic w h ++ rest ->
  has_numbers (visible ts) T_OlympusRedMul (r :: r') -> has_numbers (visible ts) T_OlympusBlueMul (b :: b') ->
  exists img, lib_decode powf parse_f32 db file = Ok img /\ shows img cam o w h /\ is_image (i_data img) w h pic /\ i_blacks img = c_blacks cam /\ balance img r 256 b.
Proof. exact @orf_compressed_nested. Qed.
Print Assumptions C59_olympus_compressed.
Definition olympus_head' : list Z := Eval vm_compute in fst (olympus_layout AsOlymp 20 4 73).
Definition olympus_trees' : list tree := Eval vm_compute in map tree_of (snd (olympus_layout AsOlymp 20 4 73)).
Example C59_olympus_compressed_ex : forall (M : Mode) powf parse_f32, exists img cam,
  lib_decode powf parse_f32 (one_camera "OLYMPUS IMAGING CORP." "E-3" "") (olympus_head' ++ [0; 0; 0; 0; 0; 0; 0] ++ smooth_data) = Ok img /\
  shows img cam Unknown 20 4 /\ is_image (i_data img) 20 4 smooth_picture /\ balance img 430 256 390.
Proof.
  intros M powf parse_f32. destruct (camera_check M (one_camera "OLYMPUS IMAGING CORP." "E-3" "") "OLYMPUS IMAGING CORP." "E-3" "") as (l & cam & H1 & H2 & H3 & _); [destruct M; lazy; reflexivity|].
  edestruct (C59_olympus_compressed M powf parse_f32 _ l H1 false olympus_trees') with (file := olympus_head' ++ [0; 0; 0; 0; 0; 0; 0] ++ smooth_data) (make := "OLYMPUS IMAGING CORP."%string) (model := "E-3"%string) (head := [0; 0; 0; 0; 0; 0; 0]) (data := smooth_data) (pic := smooth_picture) (rest := @nil bool) (counts := [73]) (r := 430) (b := 390) (r' := [256]) (b' := [256]) (w := 20) (h := 4) (o := Unknown) (cam := cam)
    as (img & E1 & E2 & E3 & _ & E4); [cbn; auto|nested (snd (olympus_layout AsOlymp 20 4 73))|in_place|lia|reflexivity|numbers|vm_compute; reflexivity|vm_compute; reflexivity| | |reflexivity|vm_compute; reflexivity|numbers|numbers|].
  - intros r c _ _. unfold smooth_picture. pose proof (Z.mod_pos_bound (r * 5 + c * 3) 7 ltac:(lia)). lia.
  - intros r c Hr Hc.
    assert (forall r, 0 <= r < 4 -> forallb (fun c => let '(_, mean, _) := orf_before smooth_picture r c in orf_distance mean (orf_residual smooth_picture r c) <? 2 ^ 15) (upto 20) = true) as H.
    { apply upto_all. vm_compute. reflexivity. }
    pose proof (upto_all 20 _ (H r Hr) c Hc) as Q. cbv beta in Q. destruct (orf_before smooth_picture r c) as [[a b] d]. apply Z.ltb_lt. exact Q.
  - exists img, cam. split; [exact E1|auto].
Qed.

(** Nikon: samples of 12 or 14 bits. *)
Theorem C59_nikon : forall (M : Mode) powf parse_f32 db l, loader_new db = Ok l ->
  forall big ts raw model file w h o cam samples rest bps size ra rb ba bb more, bps = 12 \/ bps = 14 ->
  nested_photo l (nikon_mode bps) big ts "NIKON CORPORATION" model file o cam -> c_model cam <> "NIKON D100"%string ->
  picture_at ts file T_CFAPattern T_ImageWidth T_ImageLength T_StripOffsets raw w h (nikon_data big bps samples ++ rest) -> has_number (visible [raw]) T_BitsPerSample bps ->
  has_number (visible [raw]) T_Compression 1 -> has_number (visible [raw]) T_StripByteCounts size ->
  0 < w -> (bps = 12 -> Z.even w = true) -> Z.of_nat (length samples) = w * h -> Forall (Spec_Packed.fits (Z.to_nat bps)) samples ->
  has_fractions big (visible ts) T_NefWB0 ((ra, rb) :: (ba, bb) :: more) ->
  exists img, lib_decode powf parse_f32 db file = Ok img /\ shows img cam o w h /\ i_data img = samples /\ i_blacks img = c_blacks cam /\
    reads_fraction (e0 (i_wb img)) ra rb /\ nearest (e1 (i_wb img)) (IZR 1) /\ reads_fraction (e2 (i_wb img)) ba bb.
Proof. exact @nef_nested. Qed.
Print Assumptions C59_nikon.
Definition nikon_layout (compression bps size : Z) (tones : list Z) := lay_out false AsNikon [text_field T_Make "NIKON CORPORATION"; text_field T_Model "NIKON D3"]
  (fun at_ => [mkfield T_ImageWidth 3 [4]; mkfield T_ImageLength 4 [2]; mkfield T_BitsPerSample 3 [bps]; mkfield T_Compression 3 [compression]; mkfield T_StripOffsets 4 [at_];
    mkfield T_StripByteCounts 4 [size]; mkfield T_CFAPattern 1 [0; 1; 1; 2]])
  [mkfield T_NefWB0 5 (map (fraction false) [(500, 256); (350, 256); (1, 1); (1, 1)]); mkfield T_NefMeta1 7 tones].
Definition nikon_head : list Z := Eval vm_compute in fst (nikon_layout 1 14 16 [1]).
Definition nikon_trees : list tree := Eval vm_compute in map tree_of (snd (nikon_layout 1 14 16 [1])).
Example C59_nikon_ex : forall (M : Mode) powf parse_f32, exists img cam,
  lib_decode powf parse_f32 (one_camera "NIKON CORPORATION" "NIKON D3" "14bit") (nikon_head ++ pack16 false nikon_samples ++ []) = Ok img /\
  shows img cam Unknown 4 2 /\ i_data img = nikon_samples /\ reads_fraction (e0 (i_wb img)) 500 256.
Proof.
  intros M powf parse_f32. destruct (camera_check M (one_camera "NIKON CORPORATION" "NIKON D3" "14bit") "NIKON CORPORATION" "NIKON D3" "14bit") as (l & cam & H1 & H2 & H3 & H4); [destruct M; lazy; reflexivity|].
  edestruct (C59_nikon M powf parse_f32 _ l H1 false nikon_trees) with (file := nikon_head ++ pack16 false nikon_samples ++ []) (model := "NIKON D3"%string) (samples := nikon_samples) (rest := @nil Z) (bps := 14) (size := 16) (ra := 500) (rb := 256) (ba := 350) (bb := 256) (more := [(1, 1); (1, 1)]) (w := 4) (h := 2) (o := Unknown) (cam := cam)
    as (img & E1 & E2 & E3 & _ & E4 & _);
    [auto|nested (snd (nikon_layout 1 14 16 [1]))|rewrite H4; discriminate|in_place|number|number|number|lia|discriminate|reflexivity|small_samples|fractions|].
  exists img, cam. split; [exact E1|auto].
Qed.

(** Nikon, compressed.  Missing, as in C53: rows after the change of code, which C47
    refutes. *)
Theorem C59_nikon_compressed_partial : forall (M : Mode) powf parse_f32 db l, loader_new db = Ok l ->
  forall big ts raw meta model file w h o cam data rest (bits14 : bool) size ra rb ba bb more v0 v1 skipped x1 x2 x3 x4 points tail curve pic,
  let bps := if bits14 then 14 else 12 in
  let note := nikon_note big v0 v1 skipped x1 x2 x3 x4 points tail in
  let start := nikon_start x1 x2 x3 x4 in
  nested_photo l (nikon_mode bps) big ts "NIKON CORPORATION" model file o cam -> c_model cam <> "NIKON D100"%string ->
  picture_at ts file T_CFAPattern T_ImageWidth T_ImageLength T_StripOffsets raw w h data -> has_number (visible [raw]) T_BitsPerSample bps ->
  has_number (visible [raw]) T_Compression 34713 -> has_number (visible [raw]) T_StripByteCounts size -> w * h * 14 < 2 ^ 64 -> size <> w * h * bps / 8 -> size <> w * h * 3 ->
  0 < w -> Z.even w = true ->
  directory_with ts T_NefMeta1 meta ->
  In (mkfield T_NefMeta2 7 note) (visible [meta]) \/ has_no (visible [meta]) T_NefMeta2 /\ In (mkfield T_NefMeta1 7 note) (visible [meta]) -> bytes note ->
  Z.of_nat (length skipped) = nikon_skipped v0 v1 -> sample x1 -> sample x2 -> sample x3 -> sample x4 -> samples points -> Z.of_nat (length points) < 65536 ->
  nikon_curve v0 v1 bps points curve -> increasing curve -> not_too_steep curve ->
  (v0 = 68 -> v1 = 32 -> 564 <= Z.of_nat (length note)) -> nikon_second big v0 v1 note = 0 \/ h <= nikon_second big v0 v1 note ->
  (forall r c, 0 <= r < h -> 0 <= c < w -> 0 <= pic r c < Z.of_nat (length curve) /\ Z.abs (step_of start pic r c) < 2 ^ bps) ->
  bits_of data = steps_coded (fun _ => code_of (nikon_code bits14 (v0 =? 70))) start pic w h ++ rest ->
  has_fractions big (visible ts) T_NefWB0 ((ra, rb) :: (ba, bb) :: more) ->
  exists img, lib_decode powf parse_f32 db file = Ok img /\ shows img cam o w h /\
    is_image (i_data img) w h (toned_picture curve pic w (Spec_Bits.number (firstn 24 (bits_of data ++ repeat false 24)))) /\ i_blacks img = c_blacks cam /\
    reads_fraction (e0 (i_wb img)) ra rb /\ nearest (e1 (i_wb img)) (IZR 1) /\ reads_fraction (e2 (i_wb img)) ba bb.
Proof. exact @nef_compressed_nested. Qed.
Print Assumptions C59_nikon_compressed_partial.
Definition nikon_head' : list Z := Eval vm_compute in fst (nikon_layout 34713 14 6 nikon_tones).
Definition nikon_trees' : list tree := Eval vm_compute in map tree_of (snd (nikon_layout 34713 14 6 nikon_tones)).
Example C59_nikon_compressed_ex : forall (M : Mode) powf parse_f32, exists img cam,
  lib_decode powf parse_f32 (one_camera "NIKON CORPORATION" "NIKON D3" "14bit") (nikon_head' ++ nikon_bits) = Ok img /\
  shows img cam Unknown 4 2 /\ is_image (i_data img) 4 2 (toned_picture ex_curve ex_indices 4 16494461).
Proof.
  intros M powf parse_f32. destruct (camera_check M (one_camera "NIKON CORPORATION" "NIKON D3" "14bit") "NIKON CORPORATION" "NIKON D3" "14bit") as (l & cam & H1 & H2 & H3 & H4); [destruct M; lazy; reflexivity|].
  edestruct (C59_nikon_compressed_partial M powf parse_f32 _ l H1 false nikon_trees') with (model := "NIKON D3"%string) (file := nikon_head' ++ nikon_bits) (data := nikon_bits) (rest := @nil bool) (bits14 := true) (size := 6) (ra := 500) (rb := 256) (ba := 350) (bb := 256) (more := [(1, 1); (1, 1)])
    (v0 := 68) (v1 := 16) (skipped := @nil Z) (x1 := 1) (x2 := 2) (x3 := 3) (x4 := 4) (points := ex_curve) (tail := @nil Z) (curve := ex_curve) (pic := ex_indices) (w := 4) (h := 2) (o := Unknown) (cam := cam)
    as (img & E1 & E2 & E3 & _);
    [nested (snd (nikon_layout 34713 14 6 nikon_tones))|rewrite H4; discriminate|in_place|number|number|number|reflexivity|discriminate|discriminate|lia|reflexivity|vm_compute; reflexivity|right; split; [absent|member]|
     apply bytes_check; vm_compute; reflexivity|reflexivity|unfold sample; lia|unfold sample; lia|unfold sample; lia|unfold sample; lia| |reflexivity| | | |intros _ Q; discriminate Q|left; reflexivity| |vm_compute; reflexivity|fractions|].
  - apply Forall_forall. intros x Hx. cbn in Hx. unfold sample. lia.
  - right. left. repeat split; try lia. vm_compute. discriminate.
  - intros i j Hi Hj. change (Z.of_nat (length ex_curve)) with 11 in Hj.
    destruct (ex_curve_cases i ltac:(lia)) as [-> |[-> |[-> |[-> |[-> |[-> |[-> |[-> |[-> |[-> | ->]]]]]]]]]];
    destruct (ex_curve_cases j ltac:(lia)) as [-> |[-> |[-> |[-> |[-> |[-> |[-> |[-> |[-> |[-> | ->]]]]]]]]]]; vm_compute; first [discriminate|lia].
  - intros i Hi _. change (Z.of_nat (length ex_curve)) with 11 in Hi.
    destruct (ex_curve_cases i ltac:(lia)) as [-> |[-> |[-> |[-> |[-> |[-> |[-> |[-> |[-> |[-> | ->]]]]]]]]]]; vm_compute; split; first [discriminate|reflexivity].
  - each_pixel; (split; [split; vm_compute; first [discriminate|reflexivity]|vm_compute; reflexivity]).
  - exists img, cam. split; [exact E1|]. split; [exact E2|]. exact E3.
Qed.

(** Panasonic: samples of 12 bits, each in the upper part of two bytes. *)
Theorem C59_panasonic : forall (M : Mode) powf parse_f32 db l, loader_new db = Ok l ->
  forall big ts raw make model file w h o cam samples rest r b, panasonic_make make ->
  nested_photo l (aspect w h) big ts make model file o cam -> has_no (visible ts) T_PanaOffsets ->
  picture_at ts file T_StripOffsets T_PanaWidth T_PanaLength T_StripOffsets raw w h (pack16 false (map (fun v => 16 * v) samples) ++ rest) -> 0 < w -> 0 < h ->
  Z.of_nat (length samples) = w * h -> Forall (Spec_Packed.fits 12) samples ->
  has_number (visible ts) T_PanaWBsR r -> has_number (visible ts) T_PanaWBsB b ->
  exists img, lib_decode powf parse_f32 db file = Ok img /\ shows img cam o w h /\ i_data img = samples /\ i_blacks img = c_blacks cam /\ balance img r 256 b.
Proof. exact @rw2_nested. Qed.
Print Assumptions C59_panasonic.
Definition panasonic_layout (tag w h : Z) := lay_out false AsPlain [text_field T_Make "Panasonic"; text_field T_Model "DMC-G1"]
  (fun at_ => [mkfield T_PanaWidth 3 [w]; mkfield T_PanaLength 3 [h]; mkfield tag 4 [at_]; mkfield T_PanaWBsR 3 [520]; mkfield T_PanaWBsB 3 [377]]) [mkfield T_ImageWidth 3 [9]].
Definition panasonic_head : list Z := Eval vm_compute in fst (panasonic_layout T_StripOffsets 4 2).
Definition panasonic_trees : list tree := Eval vm_compute in map tree_of (snd (panasonic_layout T_StripOffsets 4 2)).
Example C59_panasonic_ex : forall (M : Mode) powf parse_f32, exists img cam,
  lib_decode powf parse_f32 (one_camera "Panasonic" "DMC-G1" "16:9") (panasonic_head ++ pack16 false (map (fun v => 16 * v) mamiya_samples) ++ []) = Ok img /\
  shows img cam Unknown 4 2 /\ i_data img = mamiya_samples /\ balance img 520 256 377.
Proof.
  intros M powf parse_f32. destruct (camera_check M (one_camera "Panasonic" "DMC-G1" "16:9") "Panasonic" "DMC-G1" "16:9") as (l & cam & H1 & H2 & H3 & _); [destruct M; lazy; reflexivity|].
  edestruct (C59_panasonic M powf parse_f32 _ l H1 false panasonic_trees) with (file := panasonic_head ++ pack16 false (map (fun v => 16 * v) mamiya_samples) ++ []) (make := "Panasonic"%string) (model := "DMC-G1"%string) (samples := mamiya_samples) (rest := @nil Z) (r := 520) (b := 377) (w := 4) (h := 2) (o := Unknown) (cam := cam)
    as (img & E1 & E2 & E3 & _ & E4); [cbn; auto|nested (snd (panasonic_layout T_StripOffsets 4 2))|absent|in_place|lia|lia|reflexivity|small_samples|number|number|].
  exists img, cam. split; [exact E1|auto].
Qed.

(** Panasonic, compressed. *)
Theorem C59_panasonic_compressed : forall (M : Mode) powf parse_f32 db l, loader_new db = Ok l ->
  forall big ts raw make model data file w h o cam pic choice byte r b, panasonic_make make ->
  nested_photo l (aspect w h) big ts make model file o cam -> has_no (visible ts) T_PanaOffsets ->
  picture_at ts file T_StripOffsets T_PanaWidth T_PanaLength T_StripOffsets raw w h data -> 0 < w -> 0 < h -> w mod 14 = 0 ->
  16 * (w / 14 * h) <= zlen data -> zlen data + 16 < w * h * 3 / 2 ->
  (forall g, 0 <= g < w / 14 * h -> pana_group_fits (choice g) (byte g) (pana_values pic w g) /\
     bits_of (pana_group_bytes false data g) = pana_group_coded (choice g) (byte g) (pana_values pic w g)) ->
  has_number (visible ts) T_PanaWBsR r -> has_number (visible ts) T_PanaWBsB b ->
  exists img, lib_decode powf parse_f32 db file = Ok img /\ shows img cam o w h /\ is_image (i_data img) w h pic /\ i_blacks img = c_blacks cam /\ balance img r 256 b.
Proof. exact @rw2_compressed_nested. Qed.
Print Assumptions C59_panasonic_compressed.
Definition panasonic_head' : list Z := Eval vm_compute in fst (panasonic_layout T_StripOffsets 14 4).
Definition panasonic_trees' : list tree := Eval vm_compute in map tree_of (snd (panasonic_layout T_StripOffsets 14 4)).
Example C59_panasonic_compressed_ex : forall (M : Mode) powf parse_f32, exists img cam,
  lib_decode powf parse_f32 (one_camera "Panasonic" "DMC-G1" "16:9") (panasonic_head' ++ four_rows) = Ok img /\
  shows img cam Unknown 14 4 /\ is_image (i_data img) 14 4 panasonic_picture /\ balance img 520 256 377.
Proof.
  intros M powf parse_f32. destruct (camera_check M (one_camera "Panasonic" "DMC-G1" "16:9") "Panasonic" "DMC-G1" "16:9") as (l & cam & H1 & H2 & H3 & _); [destruct M; lazy; reflexivity|].
  edestruct (C59_panasonic_compressed M powf parse_f32 _ l H1 false panasonic_trees') with (file := panasonic_head' ++ four_rows) (make := "Panasonic"%string) (model := "DMC-G1"%string) (data := four_rows) (pic := panasonic_picture) (choice := panasonic_choices) (byte := panasonic_bytes) (r := 520) (b := 377) (w := 14) (h := 4) (o := Unknown) (cam := cam)
    as (img & E1 & E2 & E3 & _ & E4); [cbn; auto|nested (snd (panasonic_layout T_StripOffsets 14 4))|absent|in_place|lia|lia|reflexivity|vm_compute; discriminate|vm_compute; reflexivity| |number|number|].
  - change (14 / 14 * 4) with 4. intros g Hg. split; [apply (group_check panasonic_choices panasonic_bytes panasonic_picture 14 4); [vm_compute; reflexivity|exact Hg]|].
    assert (g = 0 \/ g = 1 \/ g = 2 \/ g = 3) as [-> |[-> |[-> | ->]]] by lia; vm_compute; reflexivity.
  - exists img, cam. split; [exact E1|auto].
Qed.

(** Panasonic, compressed in blocks of 16384 bytes whose two parts are swapped.
    Missing, as in C53: the group of 14 pixels in each block that spans the two parts,
    which the program decodes wrongly (C47). *)
Theorem C59_panasonic_split_partial : forall (M : Mode) powf parse_f32 db l, loader_new db = Ok l ->
  forall big ts raw make model data file w h o cam pic choice byte r b, panasonic_make make ->
  nested_photo l (aspect w h) big ts make model file o cam ->
  picture_at ts file T_PanaOffsets T_PanaWidth T_PanaLength T_PanaOffsets raw w h data -> 0 < w -> 0 < h -> w mod 14 = 0 ->
  16384 * ((w / 14 * h + 1023) / 1024) <= zlen data ->
  (forall g, 0 <= g < w / 14 * h -> pana_group_fits (choice g) (byte g) (pana_values pic w g) /\
     bits_of (pana_group_bytes true data g) = pana_group_coded (choice g) (byte g) (pana_values pic w g)) ->
  has_number (visible ts) T_PanaWBsR r -> has_number (visible ts) T_PanaWBsB b ->
  exists img, lib_decode powf parse_f32 db file = Ok img /\ shows img cam o w h /\ zlen (i_data img) = w * h /\
    (forall r c, 0 <= r < h -> 0 <= c < w -> (r * w + c) / 14 mod 1024 <> 512 -> nth (Z.to_nat (r * w + c)) (i_data img) 0 = pic r c) /\
    i_blacks img = c_blacks cam /\ balance img r 256 b.
Proof. exact @rw2_split_nested. Qed.
Print Assumptions C59_panasonic_split_partial.
Definition panasonic_head'' : list Z := Eval vm_compute in fst (panasonic_layout T_PanaOffsets 28 1).
Definition panasonic_trees'' : list tree := Eval vm_compute in map tree_of (snd (panasonic_layout T_PanaOffsets 28 1)).
Example C59_panasonic_split_ex : forall (M : Mode) powf parse_f32, exists img cam,
  lib_decode powf parse_f32 (one_camera "Panasonic" "DMC-G1" "16:9") (panasonic_head'' ++ repeat 0 16384) = Ok img /\
  shows img cam Unknown 28 1 /\ nth 27 (i_data img) 1 = 0 /\ balance img 520 256 377.
Proof.
  intros M powf parse_f32. destruct (camera_check M (one_camera "Panasonic" "DMC-G1" "16:9") "Panasonic" "DMC-G1" "16:9") as (l & cam & H1 & H2 & H3 & _); [destruct M; lazy; reflexivity|].
  edestruct (C59_panasonic_split_partial M powf parse_f32 _ l H1 false panasonic_trees'') with (file := panasonic_head'' ++ repeat 0 16384) (make := "Panasonic"%string) (model := "DMC-G1"%string) (data := repeat 0 16384) (pic := fun _ _ : Z => 0) (choice := fun _ _ : Z => 0) (byte := fun _ _ : Z => 0) (r := 520) (b := 377) (w := 28) (h := 1) (o := Unknown) (cam := cam)
    as (img & E1 & E2 & E3 & E4 & _ & E5); [cbn; auto| |in_place|lia|lia|reflexivity| | |number|number|].
  - eapply (nested_check _ _ _ _ _ _ _ (snd (panasonic_layout T_PanaOffsets 28 1))); [vm_compute; reflexivity|vm_compute; reflexivity|rewrite repeat_length; vm_compute; reflexivity|apply zeros_ok|member|vm_compute; reflexivity|member|vm_compute; reflexivity|absent|discriminate|absent|assumption|assumption].
  - unfold zlen. rewrite repeat_length. vm_compute. discriminate.
  - change (28 / 14 * 1) with 2. intros g Hg. split; [apply (group_check (fun _ _ => 0) (fun _ _ => 0) (fun _ _ => 0) 28 2); [vm_compute; reflexivity|exact Hg]|].
    rewrite zero_group. vm_compute. reflexivity.
  - exists img, cam. split; [exact E1|]. split; [exact E2|]. split; [|exact E5]. specialize (E4 0 27 ltac:(lia) ltac:(lia)). 
    rewrite <- (E4 ltac:(vm_compute; discriminate)). apply nth_indep. unfold zlen in E3. clear - E3. lia.
Qed.

