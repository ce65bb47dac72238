(** C54: DNG files.  The picture comes back, and the size, the orientation, the
    levels of black and white, the white balance, the crops, the filter pattern and
    the colour matrix are those that the fields of the file tell.

    All files here have one directory, at the start of the file, and the fields are
    in any order. *)
From Coq Require Import String Ascii ZArith List Bool Reals Lia ZifyBool.
From Verif Require Import Base Num F32 Cfa Tiff Transform Image Camera Clients Dispatch.
From Verif Require Import Spec_Bits Spec_Image Spec_Stream Spec_Packed Spec_Cfa Spec_Tiff Spec_Camera Spec_Known Spec_Huffman Spec_Ljpeg Spec_Curve Spec_Meta Spec_File Spec_Dng.
From Verif Require Import P_Srw3b P_Ljpeg11 P_File5 P_Dng3 P_Dng4 Props_Ljpeg.
Import ListNotations.
Local Open Scope Z_scope.

(** Samples of 16 bits, the lower byte first, or packed samples of 12 bits *)
Theorem C54_plain : forall (M : Mode) powf parse_f32 db l, loader_new db = Ok l ->
  forall big fs make model file w h cpp o m, directory_file big fs make model file -> dng_fields big fs w h cpp 1 o m ->
  forall bps offset samples rest, bps = 16 \/ bps = 12 -> has_number fs T_BitsPerSample bps -> has_number fs T_StripOffsets offset ->
  0 < w * cpp -> (bps = 12 -> Z.even (w * cpp) = true) ->
  from_offset file offset ((if bps =? 16 then pack16 false samples else pack 12 samples) ++ rest) ->
  Z.of_nat (length samples) = w * cpp * h -> Forall (Spec_Packed.fits (Z.to_nat bps)) samples ->
  exists img, lib_decode powf parse_f32 db file = Ok img /\ dng_shows l make model img w h cpp o m /\ i_data img = samples.
Proof. exact @dng_plain_whole. Qed.
Print Assumptions C54_plain.
Definition strip_at (at_ : Z) : list field := [mkfield T_StripOffsets 4 [at_]].
Definition dng_samples : list Z := [291; 1110; 1929; 2748; 3840; 460; 1383; 2202].
Example C54_plain_ex : forall (M : Mode) powf parse_f32, exists l img,
  lib_decode powf parse_f32 (one_camera "M" "A" "") (tiff_file true (example_fields true 4 2 1 12 (strip_at 336)) ++ pack 12 dng_samples ++ [1]) = Ok img /\
  dng_shows l "Ricoh" "GR" img 4 2 1 Rotate270 example_meta /\ i_data img = dng_samples.
Proof.
  intros M powf parse_f32. destruct (camera_check M (one_camera "M" "A" "") "M" "A" "") as (l & cam & H1 & _); [destruct M; lazy; reflexivity|]. exists l.
  apply (C54_plain M powf parse_f32 _ l H1 true (example_fields true 4 2 1 12 (strip_at 336)) "Ricoh" "GR" _ 4 2 1 Rotate270 example_meta) with (bps := 12) (offset := 336) (rest := [1]).
  - directory.
  - apply example_kept; [lia|lia|lia|absent].
  - auto.
  - number.
  - number.
  - lia.
  - reflexivity.
  - split; [vm_compute; split; discriminate|vm_compute; reflexivity].
  - reflexivity.
  - small_samples.
Qed.

(** Bytes that stand for the values of a table.  Missing: the program adds noise that
    spreads over half the distance between the two neighbours of the value ([near]),
    so that the values do not come back exactly; and tables that are not increasing
    or too steep, where it fails (C05). *)
Theorem C54_table_partial : forall (M : Mode) powf parse_f32 db l, loader_new db = Ok l ->
  forall big fs make model file w h cpp o m, directory_file big fs make model file -> dng_fields big fs w h cpp 1 o m ->
  forall offset stored curve, has_number fs T_BitsPerSample 8 -> has_number fs T_StripOffsets offset ->
  has_numbers fs T_Linearization curve -> length curve = 256%nat -> samples curve -> increasing curve -> not_too_steep curve ->
  0 < w * cpp -> from_offset file offset stored -> w * cpp * h <= Z.of_nat (length stored) ->
  exists img, lib_decode powf parse_f32 db file = Ok img /\ dng_shows l make model img w h cpp o m /\ Z.of_nat (length (i_data img)) = w * cpp * h /\
    forall k, 0 <= k < w * cpp * h -> near curve (nth (Z.to_nat k) stored 0) (nth (Z.to_nat k) (i_data img) 0).
Proof. exact @dng_table_whole. Qed.
Print Assumptions C54_table_partial.
Example C54_table_ex : forall (M : Mode) powf parse_f32, exists l img,
  lib_decode powf parse_f32 (one_camera "M" "A" "") (tiff_file true (example_fields true 4 2 1 8 (strip_at 860 ++ [mkfield T_Linearization 3 table])) ++ [1; 20; 30; 250; 3; 4; 5; 6]) = Ok img /\
  dng_shows l "Ricoh" "GR" img 4 2 1 Rotate270 example_meta /\ near table 250 (nth 3 (i_data img) 0).
Proof.
  intros M powf parse_f32. destruct (camera_check M (one_camera "M" "A" "") "M" "A" "") as (l & cam & H1 & _); [destruct M; lazy; reflexivity|]. exists l.
  destruct (C54_table_partial M powf parse_f32 _ l H1 true (example_fields true 4 2 1 8 (strip_at 860 ++ [mkfield T_Linearization 3 table])) "Ricoh" "GR"
    (tiff_file true (example_fields true 4 2 1 8 (strip_at 860 ++ [mkfield T_Linearization 3 table])) ++ [1; 20; 30; 250; 3; 4; 5; 6])
    4 2 1 Rotate270 example_meta) with (offset := 860) (curve := table) (stored := [1; 20; 30; 250; 3; 4; 5; 6]) as (img & I1 & I2 & _ & I3).
  - directory.
  - apply example_kept; [lia|lia|lia|absent].
  - number.
  - number.
  - left. split; [member|apply table_good].
  - reflexivity.
  - apply table_good.
  - apply table_good.
  - apply table_good.
  - lia.
  - split; [vm_compute; split; discriminate|vm_compute; reflexivity].
  - vm_compute. discriminate.
  - exists img. split; [exact I1|]. split; [exact I2|]. exact (I3 3 ltac:(lia)).
Qed.

(** One lossless JPEG.  Its pixels have [n] components, whatever the number of
    samples in a pixel of the picture. *)
Theorem C54_jpeg : forall (M : Mode) powf parse_f32 db l, loader_new db = Ok l ->
  forall big fs make model file w h cpp o m, directory_file big fs make model file -> dng_fields big fs w h cpp 7 o m ->
  forall offset n jw jh pic stored, has_number fs T_StripOffsets offset -> from_offset file offset stored ->
  holds_jpeg debug n jw jh pic stored -> 0 < h <= jh -> 0 < w * cpp <= n * jw -> (w * cpp) mod n = 0 ->
  exists img, lib_decode powf parse_f32 db file = Ok img /\ dng_shows l make model img w h cpp o m /\ is_image (i_data img) (w * cpp) h (flat n pic).
Proof. exact @dng_jpeg_whole. Qed.
Print Assumptions C54_jpeg.
Example C54_jpeg_ex : forall (M : Mode) powf parse_f32, exists l img,
  lib_decode powf parse_f32 (one_camera "M" "A" "") (tiff_file false (example_fields false 4 2 7 14 (strip_at 337)) ++ [0] ++ jpeg_sample) = Ok img /\
  dng_shows l "Ricoh" "GR" img 4 2 1 Rotate270 example_meta /\ is_image (i_data img) 4 2 (flat 2 jpeg_picture).
Proof.
  intros M powf parse_f32. destruct (camera_check M (one_camera "M" "A" "") "M" "A" "") as (l & cam & H1 & _); [destruct M; lazy; reflexivity|]. exists l.
  apply (C54_jpeg M powf parse_f32 _ l H1 false (example_fields false 4 2 7 14 (strip_at 337)) "Ricoh" "GR" _ 4 2 1 Rotate270 example_meta) with (offset := 337) (jw := 2) (jh := 2) (stored := jpeg_sample).
  - directory.
  - apply example_kept; [lia|lia|lia|absent].
  - number.
  - split; [vm_compute; split; discriminate|vm_compute; reflexivity].
  - apply jpeg_held. constructor.
  - lia.
  - lia.
  - reflexivity.
Qed.

(** Tiles, each a lossless JPEG.  Four components are possible only if there is one
    column of tiles. *)
Theorem C54_tiles : forall (M : Mode) powf parse_f32 db l, loader_new db = Ok l ->
  forall big fs make model file w h cpp o m, directory_file big fs make model file -> dng_fields big fs w h cpp 7 o m ->
  forall n tw tl offs pic, has_no fs T_StripOffsets -> has_numbers fs T_TileOffsets offs ->
  has_number fs T_TileWidth tw -> has_number fs T_TileLength tl ->
  0 < tw -> 0 < tl -> 0 < h -> 0 < w * cpp -> w * cpp * h < 2 ^ 64 -> (w * cpp) mod n = 0 -> (tw * cpp) mod n = 0 -> (n = 4 -> w <= tw) ->
  Z.of_nat (length offs) = tiles w tw * tiles h tl ->
  (forall tr tc, 0 <= tr < tiles h tl -> 0 <= tc < tiles w tw -> exists stored jw jh tile,
     from_offset file (nth (Z.to_nat (tr * tiles w tw + tc)) offs 0) stored /\ holds_jpeg debug n jw jh tile stored /\
     tile_shows n (tw * cpp) tl (w * cpp) h pic tr tc jw jh tile) ->
  exists img, lib_decode powf parse_f32 db file = Ok img /\ dng_shows l make model img w h cpp o m /\ is_image (i_data img) (w * cpp) h pic.
Proof. exact @dng_tiles_whole. Qed.
Print Assumptions C54_tiles.
Definition tiled (r c : Z) : Z := flat 2 jpeg_picture (r mod 2) (c mod 4).
Definition four_tiles : list field := [mkfield T_TileOffsets 4 [376; 446; 376; 446]; mkfield T_TileWidth 3 [4]; mkfield T_TileLength 3 [2]].
Example C54_tiles_ex : forall (M : Mode) powf parse_f32, exists l img,
  lib_decode powf parse_f32 (one_camera "M" "A" "") (tiff_file false (example_fields false 6 3 7 14 four_tiles) ++ jpeg_twice) = Ok img /\
  dng_shows l "Ricoh" "GR" img 6 3 1 Rotate270 example_meta /\ is_image (i_data img) 6 3 tiled.
Proof.
  intros M powf parse_f32. destruct (camera_check M (one_camera "M" "A" "") "M" "A" "") as (l & cam & H1 & _); [destruct M; lazy; reflexivity|]. exists l.
  apply (C54_tiles M powf parse_f32 _ l H1 false (example_fields false 6 3 7 14 four_tiles) "Ricoh" "GR" _ 6 3 1 Rotate270 example_meta)
    with (n := 2) (tw := 4) (tl := 2) (offs := [376; 446; 376; 446]).
  - directory.
  - apply example_kept; [lia|lia|lia|absent].
  - absent.
  - numbers.
  - number.
  - number.
  - lia.
  - lia.
  - lia.
  - lia.
  - reflexivity.
  - reflexivity.
  - reflexivity.
  - discriminate.
  - reflexivity.
  - change (tiles 3 2) with 2. change (tiles 6 4) with 2. intros tr tc Hr Hc. exists (if tc =? 0 then jpeg_twice else jpeg_sample), 2, 2, jpeg_picture.
    split; [|split].
    + assert (tr = 0 \/ tr = 1) as [-> | ->] by lia; assert (tc = 0 \/ tc = 1) as [-> | ->] by lia; (split; [vm_compute; split; discriminate|vm_compute; reflexivity]).
    + destruct (tc =? 0); apply jpeg_held; [apply bytes_check; vm_compute; reflexivity|constructor].
    + split; [lia|]. split; [lia|]. intros r c Hr' Hc'. unfold tiled. rewrite (Z.add_comm (tr * 2)), (Z.add_comm (tc * (4 * 1))), Z.mod_add, (Z.mod_small r 2) by lia.
      change (4 * 1) with 4. rewrite Z.mod_add, (Z.mod_small c 4) by lia. reflexivity.
Qed.

(** Samples of 16 bits in the byte order of the file, if that is the upper byte
    first, come out wrong: their bytes are swapped. *)
Theorem C54_big_endian_refuted : forall (M : Mode) powf parse_f32 db l, loader_new db = Ok l ->
  forall fs make model file w h cpp o m, directory_file true fs make model file -> dng_fields true fs w h cpp 1 o m ->
  forall offset samples rest, has_number fs T_BitsPerSample 16 -> has_number fs T_StripOffsets offset ->
  0 < w * cpp -> from_offset file offset (pack16 true samples ++ rest) -> Z.of_nat (length samples) = w * cpp * h -> Forall (Spec_Packed.fits 16) samples ->
  exists img, lib_decode powf parse_f32 db file = Ok img /\ i_data img = map swap16 samples.
Proof. exact @dng_swapped_whole. Qed.
Print Assumptions C54_big_endian_refuted.
Example C54_big_endian_ex : forall (M : Mode) powf parse_f32, exists img,
  lib_decode powf parse_f32 (one_camera "M" "A" "") (tiff_file true (example_fields true 4 2 1 16 (strip_at 336)) ++ pack16 true dng_samples ++ []) = Ok img /\
  i_data img = [8961; 22020; 35079; 48138; 15; 52225; 26373; 39432].
Proof.
  intros M powf parse_f32. destruct (camera_check M (one_camera "M" "A" "") "M" "A" "") as (l & cam & H1 & _); [destruct M; lazy; reflexivity|].
  destruct (C54_big_endian_refuted M powf parse_f32 _ l H1 (example_fields true 4 2 1 16 (strip_at 336)) "Ricoh" "GR"
    (tiff_file true (example_fields true 4 2 1 16 (strip_at 336)) ++ pack16 true dng_samples ++ []) 4 2 1 Rotate270 example_meta)
    with (offset := 336) (rest := @nil Z) (samples := dng_samples) as (img & I1 & I2).
  - directory.
  - apply example_kept; [lia|lia|lia|absent].
  - number.
  - number.
  - lia.
  - split; [vm_compute; split; discriminate|vm_compute; reflexivity].
  - reflexivity.
  - small_samples.
  - exists img. split; [exact I1|]. rewrite I2. vm_compute. reflexivity.
Qed.

