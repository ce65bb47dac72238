(** The theorems of C54 for each kind of compression, and checks for the examples. *)
From Coq Require Import String Ascii ZArith List Bool Reals Lia ZifyBool.
From Verif Require Import Base Num F32 Cfa Tiff Transform Image Camera Clients Dispatch.
From Verif Require Import Spec_Bits Spec_Image Spec_Stream Spec_Packed Spec_Cfa Spec_Tiff Spec_Camera Spec_Known Spec_Huffman Spec_Ljpeg Spec_Curve Spec_Meta Spec_File Spec_Dng.
From Verif Require Import P_Huff6 P_Ljpeg7 P_Srw3b P_File5 P_Dng3.
Import ListNotations.
Local Open Scope Z_scope.

Lemma dng_plain_whole : forall (M : Mode) powf parse_f32 db l, loader_new db = Ok l ->
  forall big fs make model file w h cpp o m, directory_file big fs make model file -> dng_fields big fs w h cpp 1 o m ->
  forall bps offset samples rest, bps = 16 \/ bps = 12 -> has_number fs T_BitsPerSample bps -> has_number fs T_StripOffsets offset ->
  0 < w * cpp -> (bps = 12 -> Z.even (w * cpp) = true) ->
  from_offset file offset ((if bps =? 16 then pack16 false samples else pack 12 samples) ++ rest) ->
  Z.of_nat (length samples) = w * cpp * h -> Forall (Spec_Packed.fits (Z.to_nat bps)) samples ->
  exists img, lib_decode powf parse_f32 db file = Ok img /\ dng_shows l make model img w h cpp o m /\ i_data img = samples.
Proof. intros M powf parse_f32 db l Hl big fs make model file w h cpp o m F D bps offset samples rest. exact (@dng_plain_file M powf parse_f32 db l Hl big fs make model file w h cpp 1 o m F D bps offset samples rest eq_refl). Qed.

Lemma dng_table_whole : forall (M : Mode) powf parse_f32 db l, loader_new db = Ok l ->
  forall big fs make model file w h cpp o m, directory_file big fs make model file -> dng_fields big fs w h cpp 1 o m ->
  forall offset stored curve, has_number fs T_BitsPerSample 8 -> has_number fs T_StripOffsets offset ->
  has_numbers fs T_Linearization curve -> length curve = 256%nat -> samples curve -> increasing curve -> not_too_steep curve ->
  0 < w * cpp -> from_offset file offset stored -> w * cpp * h <= Z.of_nat (length stored) ->
  exists img, lib_decode powf parse_f32 db file = Ok img /\ dng_shows l make model img w h cpp o m /\ Z.of_nat (length (i_data img)) = w * cpp * h /\
    forall k, 0 <= k < w * cpp * h -> near curve (nth (Z.to_nat k) stored 0) (nth (Z.to_nat k) (i_data img) 0).
Proof. intros M powf parse_f32 db l Hl big fs make model file w h cpp o m F D offset stored curve. exact (@dng_table_file M powf parse_f32 db l Hl big fs make model file w h cpp 1 o m F D offset stored curve eq_refl). Qed.

Lemma dng_jpeg_whole : forall (M : Mode) powf parse_f32 db l, loader_new db = Ok l ->
  forall big fs make model file w h cpp o m, directory_file big fs make model file -> dng_fields big fs w h cpp 7 o m ->
  forall offset n jw jh pic stored, has_number fs T_StripOffsets offset -> from_offset file offset stored ->
  holds_jpeg debug n jw jh pic stored -> 0 < h <= jh -> 0 < w * cpp <= n * jw -> (w * cpp) mod n = 0 ->
  exists img, lib_decode powf parse_f32 db file = Ok img /\ dng_shows l make model img w h cpp o m /\ is_image (i_data img) (w * cpp) h (flat n pic).
Proof. intros M powf parse_f32 db l Hl big fs make model file w h cpp o m F D offset n jw jh pic stored. exact (@dng_jpeg_file M powf parse_f32 db l Hl big fs make model file w h cpp 7 o m F D offset n jw jh pic stored eq_refl). Qed.

Lemma dng_tiles_whole : forall (M : Mode) powf parse_f32 db l, loader_new db = Ok l ->
  forall big fs make model file w h cpp o m, directory_file big fs make model file -> dng_fields big fs w h cpp 7 o m ->
  forall n tw tl offs pic, has_no fs T_StripOffsets -> has_numbers fs T_TileOffsets offs ->
  has_number fs T_TileWidth tw -> has_number fs T_TileLength tl ->
  0 < tw -> 0 < tl -> 0 < h -> 0 < w * cpp -> w * cpp * h < 2 ^ 64 -> (w * cpp) mod n = 0 -> (tw * cpp) mod n = 0 -> (n = 4 -> w <= tw) ->
  Z.of_nat (length offs) = tiles w tw * tiles h tl ->
  (forall tr tc, 0 <= tr < tiles h tl -> 0 <= tc < tiles w tw -> exists stored jw jh tile,
     from_offset file (nth (Z.to_nat (tr * tiles w tw + tc)) offs 0) stored /\ holds_jpeg debug n jw jh tile stored /\
     tile_shows n (tw * cpp) tl (w * cpp) h pic tr tc jw jh tile) ->
  exists img, lib_decode powf parse_f32 db file = Ok img /\ dng_shows l make model img w h cpp o m /\ is_image (i_data img) (w * cpp) h pic.
Proof. intros M powf parse_f32 db l Hl big fs make model file w h cpp o m F D n tw tl offs pic. exact (@dng_tiles_file M powf parse_f32 db l Hl big fs make model file w h cpp 7 o m F D n tw tl offs pic eq_refl). Qed.

Lemma dng_swapped_whole : forall (M : Mode) powf parse_f32 db l, loader_new db = Ok l ->
  forall fs make model file w h cpp o m, directory_file true fs make model file -> dng_fields true fs w h cpp 1 o m ->
  forall offset samples rest, has_number fs T_BitsPerSample 16 -> has_number fs T_StripOffsets offset ->
  0 < w * cpp -> from_offset file offset (pack16 true samples ++ rest) -> Z.of_nat (length samples) = w * cpp * h -> Forall (Spec_Packed.fits 16) samples ->
  exists img, lib_decode powf parse_f32 db file = Ok img /\ i_data img = map swap16 samples.
Proof. intros M powf parse_f32 db l Hl fs make model file w h cpp o m F D offset samples rest. exact (@dng_swapped_file M powf parse_f32 db l Hl true fs make model file w h cpp 1 o m F D offset samples rest eq_refl). Qed.
(** ** Examples *)
Definition jpeg_sample : list Z := jpeg_file [dc_code] 14 2 2 [1; 2] [0; 0] 0 [24; 231; 42; 185; 223] [].
Definition jpeg_twice : list Z := jpeg_file [dc_code] 14 2 2 [1; 2] [0; 0] 0 [24; 231; 42; 185; 223] jpeg_sample.
(** 2 x 2 pixels of two components *)
Definition jpeg_picture : picture := fun r j i => 8192 + r + 2 * j - 3 * i.
Lemma jpeg_held : forall dbg tail, bytes tail -> holds_jpeg dbg 2 2 2 jpeg_picture (jpeg_file [dc_code] 14 2 2 [1; 2] [0; 0] 0 [24; 231; 42; 185; 223] tail).
Proof.
  intros dbg tail Ht. exists [dc_code], 14, [1; 2], [0; 0], 0, [24; 231; 42; 185; 223], tail, [true; true; true; true; true]. cbv zeta.
  split; [reflexivity|]. split; [reflexivity|]. split; [ncomp|]. split; [constructor; [apply dc_good|constructor]|].
  split; [zcomp|]. split; [zcomp|]. split; [zcomp|]. split; [zcomp|]. split; [zcomp|]. split; [repeat constructor; cbn [In]; lia|]. split; [reflexivity|].
  split; [repeat constructor; cbn [length]; lia|]. split; [repeat constructor; discriminate|]. split; [exact Ht|].
  split; [intros r j i Hr Hj Hi; unfold jpeg_picture, sample; cbn [length] in Hi; lia|]. split; [|vm_compute; reflexivity].
  intros r j i Hr Hj Hi. assert (r = 0 \/ r = 1) as [R|R] by lia; assert (j = 0 \/ j = 1) as [J|J] by lia; assert (i = 0 \/ i = 1) as [I|I] by lia; subst; dc_word.
Qed.
(** The fields that do not depend on the compression *)
Definition example_meta : dng_meta :=
  mkmeta 4095 (Some [64; 65; 66; 67]) (Some ((1, 2), (1, 1), (2, 3))) (Some (0, 1, 2, 3)) (Some [0; 1; 1; 2])
    ((((8000, 10000), (-1000, 10000), (0, 1)), ((-2000, 10000), (9000, 10000), (1, 10)), ((1, 7), (-1, 3), (6000, 10000)))).
Definition example_fields (big : bool) (w h compression bps : Z) (more : list field) : list field :=
  [mkfield T_DNGVersion 1 [1; 4; 0; 0]; mkfield T_ImageWidth 3 [w]; mkfield T_ImageLength 4 [h]; mkfield T_SamplesPerPixel 3 [1]; mkfield T_Compression 3 [compression];
   mkfield T_BitsPerSample 3 [bps]; text_field T_Make "Ricoh"; text_field T_Model "GR"; mkfield T_Orientation 3 [8]; mkfield T_WhiteLevel 4 [4095]; mkfield T_BlackLevels 3 [64; 65; 66; 67];
   mkfield T_AsShotNeutral 5 (map (fraction big) [(1, 2); (1, 1); (2, 3)]); mkfield T_ActiveArea 3 [0; 1; 2; 3]; mkfield T_PhotometricInt 3 [32803]; mkfield T_CFAPattern 1 [0; 1; 1; 2];
   mkfield T_ColorMatrix2 10 (map (fraction big) [(8000, 10000); (-1000, 10000); (0, 1); (-2000, 10000); (9000, 10000); (1, 10); (1, 7); (-1, 3); (6000, 10000)])] ++ more.
Lemma example_kept : forall big w h compression bps more, 3 <= w < 2 ^ 16 -> 2 <= h < 2 ^ 32 -> 0 <= compression < 2 ^ 16 ->
  has_no more T_NewSubFileType -> dng_fields big (example_fields big w h compression bps more) w h 1 compression Rotate270 example_meta.
Proof.
  intros big w h compression bps more Hw Hh Hc Hk.
  assert (I : forall f, In f (example_fields big w h compression bps []) -> In f (example_fields big w h compression bps more))
    by (intros f Hf; unfold example_fields in *; rewrite app_nil_r in Hf; apply in_or_app; left; exact Hf).
  split.
  - apply (in_map f_tag _ (mkfield T_DNGVersion 1 [1; 4; 0; 0])). apply I. cbn [In example_fields app]. auto 30.
  - left. intros Hin. unfold example_fields in Hin. rewrite map_app in Hin. apply in_app_or in Hin. destruct Hin as [Hin|Hin]; [|exact (Hk Hin)]. 
    assert (E : existsb (Z.eqb T_NewSubFileType) (map f_tag (example_fields big w h compression bps [])) = true)
      by (apply existsb_exists; exists T_NewSubFileType; split; [unfold example_fields; rewrite app_nil_r; exact Hin|reflexivity]). discriminate E.
  - left. split; [apply I; cbn [In example_fields app]; auto 30|lia].
  - right. split; [apply I; cbn [In example_fields app]; auto 30|lia].
  - left. split; [apply I; cbn [In example_fields app]; auto 30|lia].
  - left. split; [apply I; cbn [In example_fields app]; auto 30|lia].
  - left. exists 8. split; [left; split; [apply I; cbn [In example_fields app]; auto 30|lia]|reflexivity].
  - split; [right; split; [apply I; cbn [In example_fields app]; auto 30|cbn; lia]|reflexivity].
  - cbn [m_black example_meta]. split; [left; split; [apply I; cbn [In example_fields app]; auto 30|repeat (apply Forall_cons; [lia|]); constructor]|].
    split; [right; reflexivity|repeat (apply Forall_cons; [unfold sample; lia|]); constructor].
  - cbn [m_neutral example_meta]. split; [split; [apply I; cbn [In example_fields app list3]; auto 30|]|]; cbn [list3]; repeat (apply Forall_cons; [unfold moderate; cbn [fst snd]; lia|]); constructor.
  - cbn [m_area example_meta]. split; [left; split; [apply I; cbn [In example_fields app]; auto 30|repeat (apply Forall_cons; [lia|]); constructor]|]. lia.
  - cbn [m_pattern example_meta]. split; [left; split; [apply I; cbn [In example_fields app]; auto 30|lia]|]. split; [apply I; cbn [In example_fields app]; auto 30|].
    split; [discriminate|repeat (apply Forall_cons; [lia|]); constructor].
  - cbn [m_matrix example_meta list3 app]. left. split; [apply I; cbn [In example_fields app list3]; auto 30|]. repeat (apply Forall_cons; [cbn [fst snd]; lia|]). constructor.
Qed.
Lemma directory_check : forall big fs make model body, camera_fields fs make model -> Z.of_nat (length (tiff_file big fs ++ body)) + 16 < 2 ^ 32 -> bytes (tiff_file big fs ++ body) ->
  directory_file big fs make model (tiff_file big fs ++ body).
Proof. intros. split; try assumption. exists body. reflexivity. Qed.
Ltac directory := apply directory_check; [fields|vm_compute; reflexivity|apply bytes_check; vm_compute; reflexivity].
Definition table : list Z := map (fun k => 16 * Z.of_nat k) (seq 0 256).
Lemma table_good : samples table /\ increasing table /\ not_too_steep table.
Proof.
  assert (At : forall k, 0 <= k < 256 -> at_ table k = 16 * k).
  { intros k Hk. unfold at_, table. change 0 with ((fun k => 16 * Z.of_nat k) O) at 1. rewrite map_nth, seq_nth by lia. lia. }
  split; [|split].
  - apply Forall_forall. intros x Hx. apply in_map_iff in Hx. destruct Hx as (k & <- & Hk). apply in_seq in Hk. unfold sample. lia.
  - intros i j Hi Hj. change (Z.of_nat (length table)) with 256 in Hj. rewrite !At by lia. lia.
  - intros i Hi Hn. change (Z.of_nat (length table)) with 256 in Hi. rewrite At in * by lia. unfold above, below. change (Z.of_nat (length table)) with 256.
    destruct (i =? 256 - 1) eqn:E1; destruct (i =? 0) eqn:E2; rewrite ?At by lia; split; try (apply Z.div_le_upper_bound); lia.
Qed.
