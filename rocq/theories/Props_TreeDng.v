(** C60: DNG files whose picture is not described in the first directory.  They
    usually start with the directory of a small preview; the picture that counts is
    that of the first directory, each coming before those inside it, that is not a
    preview and holds raw data.  Files that are written so decode to the picture that
    went into them, as C54 says of files with one directory. *)
From Coq Require Import String Ascii ZArith List Bool Reals Lia.
From Verif Require Import Base Num F32 Cfa Tiff Transform Image Camera Clients Dispatch.
From Verif Require Import Spec_Bits Spec_Image Spec_Stream Spec_Packed Spec_Cfa Spec_Tiff Spec_Camera Spec_Known Spec_Huffman Spec_Ljpeg Spec_Curve Spec_Meta Spec_File Spec_Dng Spec_Tree Spec_TreeDng.
From Verif Require Import P_Srw3b P_File5 P_Dng4 P_Tree6 P_Tree9 Props_Dng.
Import ListNotations.
Local Open Scope Z_scope.

(** Samples of 16 bits, the lower byte first, or of 12 bits, packed *)
Theorem C60_plain : forall (M : Mode) powf parse_f32 db l, loader_new db = Ok l ->
  forall big ts raw make model file w h cpp o m, dng_tree big ts raw make model file w h cpp 1 o m ->
  forall bps offset samples rest, bps = 16 \/ bps = 12 -> has_number (visible [raw]) T_BitsPerSample bps -> has_number (visible [raw]) T_StripOffsets offset ->
  0 < w * cpp -> (bps = 12 -> Z.even (w * cpp) = true) ->
  from_offset file offset ((if bps =? 16 then pack16 false samples else pack 12 samples) ++ rest) ->
  Z.of_nat (length samples) = w * cpp * h -> Forall (Spec_Packed.fits (Z.to_nat bps)) samples ->
  exists img, lib_decode powf parse_f32 db file = Ok img /\ dng_shows l make model img w h cpp o m /\ i_data img = samples.
Proof. exact @dng_plain_found. Qed.
Print Assumptions C60_plain.
Definition plain_layout := dng_layout true 4 2 1 12 strip_at [].
Definition plain_head : list Z := Eval vm_compute in fst plain_layout.
Definition plain_trees : list tree := Eval vm_compute in map tree_of (snd plain_layout).
Example C60_plain_ex : forall (M : Mode) powf parse_f32, exists l img,
  lib_decode powf parse_f32 (one_camera "M" "A" "") (plain_head ++ pack 12 dng_samples ++ [1]) = Ok img /\
  dng_shows l "Ricoh" "GR" img 4 2 1 Rotate270 example_meta /\ i_data img = dng_samples.
Proof.
  intros M powf parse_f32. destruct (camera_check M (one_camera "M" "A" "") "M" "A" "") as (l & cam & H1 & _); [destruct M; lazy; reflexivity|]. exists l.
  eapply (C60_plain M powf parse_f32 _ l H1 true plain_trees _ "Ricoh" "GR" (plain_head ++ pack 12 dng_samples ++ [1]) 4 2 1 Rotate270 example_meta) with (bps := 12) (offset := Z.of_nat (length plain_head)) (rest := [1]).
  - dng_nested (snd plain_layout).
  - auto.
  - number.
  - place.
  - lia.
  - reflexivity.
  - split; [vm_compute; split; discriminate|vm_compute; reflexivity].
  - reflexivity.
  - small_samples.
Qed.

(** Bytes that stand for the values of a table.  Missing, as in C54: the noise that
    the program adds, and tables that are not increasing or too steep. *)
Theorem C60_table_partial : forall (M : Mode) powf parse_f32 db l, loader_new db = Ok l ->
  forall big ts raw make model file w h cpp o m, dng_tree big ts raw make model file w h cpp 1 o m ->
  forall offset stored curve, has_number (visible [raw]) T_BitsPerSample 8 -> has_number (visible [raw]) T_StripOffsets offset ->
  has_numbers (visible ts) T_Linearization curve -> length curve = 256%nat -> samples curve -> increasing curve -> not_too_steep curve ->
  0 < w * cpp -> from_offset file offset stored -> w * cpp * h <= Z.of_nat (length stored) ->
  exists img, lib_decode powf parse_f32 db file = Ok img /\ dng_shows l make model img w h cpp o m /\ Z.of_nat (length (i_data img)) = w * cpp * h /\
    forall k, 0 <= k < w * cpp * h -> near curve (nth (Z.to_nat k) stored 0) (nth (Z.to_nat k) (i_data img) 0).
Proof. exact @dng_table_found. Qed.
Print Assumptions C60_table_partial.
Definition table_layout := dng_layout true 4 2 1 8 strip_at [mkfield T_Linearization 3 table].
Definition table_head : list Z := Eval vm_compute in fst table_layout.
Definition table_trees : list tree := Eval vm_compute in map tree_of (snd table_layout).
Example C60_table_ex : forall (M : Mode) powf parse_f32, exists l img,
  lib_decode powf parse_f32 (one_camera "M" "A" "") (table_head ++ [1; 20; 30; 250; 3; 4; 5; 6]) = Ok img /\
  dng_shows l "Ricoh" "GR" img 4 2 1 Rotate270 example_meta /\ near table 250 (nth 3 (i_data img) 0).
Proof.
  intros M powf parse_f32. destruct (camera_check M (one_camera "M" "A" "") "M" "A" "") as (l & cam & H1 & _); [destruct M; lazy; reflexivity|]. exists l.
  edestruct (C60_table_partial M powf parse_f32 _ l H1 true table_trees) with (make := "Ricoh"%string) (model := "GR"%string) (file := table_head ++ [1; 20; 30; 250; 3; 4; 5; 6]) (w := 4) (h := 2) (cpp := 1)
    (o := Rotate270) (m := example_meta) (offset := Z.of_nat (length table_head)) (curve := table) (stored := [1; 20; 30; 250; 3; 4; 5; 6]) as (img & I1 & I2 & _ & I3).
  - dng_nested (snd table_layout).
  - number.
  - place.
  - left. split; [member|apply table_good].
  - reflexivity.
  - apply table_good.
  - apply table_good.
  - apply table_good.
  - lia.
  - split; [vm_compute; split; discriminate|vm_compute; reflexivity].
  - vm_compute. discriminate.
  - exists img. split; [exact I1|]. split; [exact I2|]. exact (I3 3 ltac:(lia)).
Qed.

(** One lossless JPEG *)
Theorem C60_jpeg : forall (M : Mode) powf parse_f32 db l, loader_new db = Ok l ->
  forall big ts raw make model file w h cpp o m, dng_tree big ts raw make model file w h cpp 7 o m ->
  forall offset n jw jh pic stored, has_number (visible [raw]) T_StripOffsets offset -> from_offset file offset stored ->
  holds_jpeg debug n jw jh pic stored -> 0 < h <= jh -> 0 < w * cpp <= n * jw -> (w * cpp) mod n = 0 ->
  exists img, lib_decode powf parse_f32 db file = Ok img /\ dng_shows l make model img w h cpp o m /\ is_image (i_data img) (w * cpp) h (flat n pic).
Proof. exact @dng_jpeg_found. Qed.
Print Assumptions C60_jpeg.
Definition jpeg_layout := dng_layout false 4 2 7 14 strip_at [].
Definition jpeg_head : list Z := Eval vm_compute in fst jpeg_layout.
Definition jpeg_trees : list tree := Eval vm_compute in map tree_of (snd jpeg_layout).
Example C60_jpeg_ex : forall (M : Mode) powf parse_f32, exists l img,
  lib_decode powf parse_f32 (one_camera "M" "A" "") (jpeg_head ++ jpeg_sample) = Ok img /\
  dng_shows l "Ricoh" "GR" img 4 2 1 Rotate270 example_meta /\ is_image (i_data img) 4 2 (flat 2 jpeg_picture).
Proof.
  intros M powf parse_f32. destruct (camera_check M (one_camera "M" "A" "") "M" "A" "") as (l & cam & H1 & _); [destruct M; lazy; reflexivity|]. exists l.
  eapply (C60_jpeg M powf parse_f32 _ l H1 false jpeg_trees _ "Ricoh" "GR" (jpeg_head ++ jpeg_sample) 4 2 1 Rotate270 example_meta) with (offset := Z.of_nat (length jpeg_head)) (jw := 2) (jh := 2) (stored := jpeg_sample).
  - dng_nested (snd jpeg_layout).
  - place.
  - split; [vm_compute; split; discriminate|vm_compute; reflexivity].
  - apply jpeg_held. constructor.
  - lia.
  - lia.
  - reflexivity.
Qed.

(** Tiles, each a lossless JPEG *)
Theorem C60_tiles : forall (M : Mode) powf parse_f32 db l, loader_new db = Ok l ->
  forall big ts raw make model file w h cpp o m, dng_tree big ts raw make model file w h cpp 7 o m ->
  forall n tw tl offs pic, has_no (visible [raw]) T_StripOffsets -> has_numbers (visible [raw]) T_TileOffsets offs ->
  has_number (visible [raw]) T_TileWidth tw -> has_number (visible [raw]) T_TileLength tl ->
  0 < tw -> 0 < tl -> 0 < h -> 0 < w * cpp -> w * cpp * h < 2 ^ 64 -> (w * cpp) mod n = 0 -> (tw * cpp) mod n = 0 -> (n = 4 -> w <= tw) ->
  Z.of_nat (length offs) = tiles w tw * tiles h tl ->
  (forall tr tc, 0 <= tr < tiles h tl -> 0 <= tc < tiles w tw -> exists stored jw jh tile,
     from_offset file (nth (Z.to_nat (tr * tiles w tw + tc)) offs 0) stored /\ holds_jpeg debug n jw jh tile stored /\
     tile_shows n (tw * cpp) tl (w * cpp) h pic tr tc jw jh tile) ->
  exists img, lib_decode powf parse_f32 db file = Ok img /\ dng_shows l make model img w h cpp o m /\ is_image (i_data img) (w * cpp) h pic.
Proof. exact @dng_tiles_found. Qed.
Print Assumptions C60_tiles.
Definition tiles_layout := dng_layout false 6 3 7 14 (fun at_ => [mkfield T_TileOffsets 4 [at_; at_ + 70; at_; at_ + 70]; mkfield T_TileWidth 3 [4]; mkfield T_TileLength 3 [2]]) [].
Definition tiles_head : list Z := Eval vm_compute in fst tiles_layout.
Definition tiles_trees : list tree := Eval vm_compute in map tree_of (snd tiles_layout).
Definition tiles_at : Z := Eval vm_compute in Z.of_nat (length tiles_head).
Example C60_tiles_ex : forall (M : Mode) powf parse_f32, exists l img,
  lib_decode powf parse_f32 (one_camera "M" "A" "") (tiles_head ++ jpeg_twice) = Ok img /\
  dng_shows l "Ricoh" "GR" img 6 3 1 Rotate270 example_meta /\ is_image (i_data img) 6 3 tiled.
Proof.
  intros M powf parse_f32. destruct (camera_check M (one_camera "M" "A" "") "M" "A" "") as (l & cam & H1 & _); [destruct M; lazy; reflexivity|]. exists l.
  eapply (C60_tiles M powf parse_f32 _ l H1 false tiles_trees _ "Ricoh" "GR" (tiles_head ++ jpeg_twice) 6 3 1 Rotate270 example_meta)
    with (n := 2) (tw := 4) (tl := 2) (offs := [tiles_at; tiles_at + 70; tiles_at; tiles_at + 70]).
  - dng_nested (snd tiles_layout).
  - absent.
  - unfold tiles_at. numbers.
  - number.
  - number.
  - lia.
  - lia.
  - lia.
  - lia.
  - reflexivity.
  - reflexivity.
  - reflexivity.
  - discriminate.
  - reflexivity.
  - change (tiles 3 2) with 2. change (tiles 6 4) with 2. intros tr tc Hr Hc. exists (if tc =? 0 then jpeg_twice else jpeg_sample), 2, 2, jpeg_picture.
    split; [|split].
    + assert (tr = 0 \/ tr = 1) as [-> | ->] by lia; assert (tc = 0 \/ tc = 1) as [-> | ->] by lia; (split; [vm_compute; split; discriminate|vm_compute; reflexivity]).
    + destruct (tc =? 0); apply jpeg_held; [apply bytes_check; vm_compute; reflexivity|constructor].
    + split; [lia|]. split; [lia|]. intros r c Hr' Hc'. unfold tiled. rewrite (Z.add_comm (tr * 2)), (Z.add_comm (tc * (4 * 1))), Z.mod_add, (Z.mod_small r 2) by lia.
      change (4 * 1) with 4. rewrite Z.mod_add, (Z.mod_small c 4) by lia. reflexivity.
Qed.

(** As in C54, samples of 16 bits with the upper byte first come out with their bytes
    swapped. *)
Theorem C60_big_endian_refuted : forall (M : Mode) powf parse_f32 db l, loader_new db = Ok l ->
  forall ts raw make model file w h cpp o m, dng_tree true ts raw make model file w h cpp 1 o m ->
  forall offset samples rest, has_number (visible [raw]) T_BitsPerSample 16 -> has_number (visible [raw]) T_StripOffsets offset ->
  0 < w * cpp -> from_offset file offset (pack16 true samples ++ rest) -> Z.of_nat (length samples) = w * cpp * h -> Forall (Spec_Packed.fits 16) samples ->
  exists img, lib_decode powf parse_f32 db file = Ok img /\ i_data img = map swap16 samples.
Proof. exact @dng_swapped_found. Qed.
Print Assumptions C60_big_endian_refuted.
Definition swapped_layout := dng_layout true 4 2 1 16 strip_at [].
Definition swapped_head : list Z := Eval vm_compute in fst swapped_layout.
Definition swapped_trees : list tree := Eval vm_compute in map tree_of (snd swapped_layout).
Example C60_big_endian_ex : forall (M : Mode) powf parse_f32, exists img,
  lib_decode powf parse_f32 (one_camera "M" "A" "") (swapped_head ++ pack16 true dng_samples ++ []) = Ok img /\
  i_data img = [8961; 22020; 35079; 48138; 15; 52225; 26373; 39432].
Proof.
  intros M powf parse_f32. destruct (camera_check M (one_camera "M" "A" "") "M" "A" "") as (l & cam & H1 & _); [destruct M; lazy; reflexivity|].
  edestruct (C60_big_endian_refuted M powf parse_f32 _ l H1 swapped_trees) with (make := "Ricoh"%string) (model := "GR"%string) (file := swapped_head ++ pack16 true dng_samples ++ []) (w := 4) (h := 2) (cpp := 1)
    (o := Rotate270) (m := example_meta) (offset := Z.of_nat (length swapped_head)) (rest := @nil Z) (samples := dng_samples) as (img & I1 & I2).
  - dng_nested (snd swapped_layout).
  - number.
  - place.
  - lia.
  - split; [vm_compute; split; discriminate|vm_compute; reflexivity].
  - reflexivity.
  - small_samples.
  - exists img. split; [exact I1|]. rewrite I2. vm_compute. reflexivity.
Qed.
