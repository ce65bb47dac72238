(** C63: whole files with a header of their own: Minolta (blocks with a tag and a
    length, one of which holds a TIFF directory) and ARRI (everything at a fixed
    place). *)
From Coq Require Import String Ascii ZArith List Bool Reals Lia.
From Flocq Require Import BinarySingleNaN.
From Verif Require Import Base Num F32 Tiff Transform Image Camera Clients Dispatch.
From Verif Require Import Spec_Bits Spec_Packed Spec_Tiff Spec_Camera Spec_Known Spec_Meta Spec_File Spec_Tree Spec_TreeMore Spec_Dispatch Spec_Header.
From Verif Require Import P_Srw3b P_File5 P_Tree6 P_Tree15 P_Header1 P_Header2 P_Header3.
Import ListNotations.
Local Open Scope Z_scope.

(** Minolta: samples of 12 bits, packed or in 16 bits each.  The header has four
    levels; two orders of them are in use. *)
Theorem C63_minolta : forall (M : Mode) powf parse_f32 db l, loader_new db = Ok l ->
  forall blocks data w h packed a b c d t make model o cam samples rest,
  minolta_blocks blocks w h packed (a, b, c, d) t -> last_long blocks ->
  bytes (minolta_file blocks data) -> Z.of_nat (length (minolta_file blocks data)) + 16 < 2 ^ 32 ->
  names (visible [t]) make model -> has_orientation (visible [t]) o -> find_camera l make model "" = Some cam -> no_black_area cam ->
  0 < w -> Z.of_nat (length samples) = w * h -> Forall (Spec_Packed.fits 12) samples ->
  (if packed then Z.even w = true /\ data = pack 12 samples ++ rest else data = pack16 true samples ++ rest) ->
  exists img, lib_decode powf parse_f32 db (minolta_file blocks data) = Ok img /\ shows img cam o w h /\ i_data img = samples /\ i_blacks img = c_blacks cam /\
    (if find_hint cam "swapped_wb" then balance img c a b else balance img a b d).
Proof. exact @minolta_file_ok. Qed.
Print Assumptions C63_minolta.
Example C63_minolta_ex : forall (M : Mode) powf parse_f32 (packed : bool), exists img cam,
  lib_decode powf parse_f32 (one_camera "Minolta Co., Ltd." "DiMAGE 7" "")
    (minolta_file (minolta_header (if packed then 12 else 16)) ((if packed then pack 12 else pack16 true) [291; 1110; 1929; 2748; 3840; 460; 1383; 4095] ++ [5])) = Ok img /\
  shows img cam Rotate90 4 2 /\ i_data img = [291; 1110; 1929; 2748; 3840; 460; 1383; 4095] /\ i_blacks img = c_blacks cam /\
  (if find_hint cam "swapped_wb" then balance img 257 400 256 else balance img 400 256 544).
Proof.
  intros M powf parse_f32 packed. destruct (camera_check M (one_camera "Minolta Co., Ltd." "DiMAGE 7" "") "Minolta Co., Ltd." "DiMAGE 7" "") as (l & cam & H1 & H2 & H3 & _); [destruct M; lazy; reflexivity|].
  edestruct (C63_minolta M powf parse_f32 _ l H1 (minolta_header (if packed then 12 else 16)) ((if packed then pack 12 else pack16 true) [291; 1110; 1929; 2748; 3840; 460; 1383; 4095] ++ [5]) 4 2 packed 400 256 257 544 (tree_of minolta_plan)
    "Minolta Co., Ltd." "DiMAGE 7" Rotate90 cam [291; 1110; 1929; 2748; 3840; 460; 1383; 4095] [5]) as (img & E).
  - split.
    + split; [|repeat (apply Forall_cons; [cbn [fst]; unfold size_tag, white_tag, directory_tag; lia|]); constructor]. apply distinct_ok. reflexivity.
    + eexists. split; [left; reflexivity|]. split; [cbn; lia|]. split; [reflexivity|]. split; [reflexivity|]. destruct packed; cbn; split; congruence || lia.
    + eexists. split; [right; right; right; left; reflexivity|]. split; [cbn; lia|]. reflexivity.
    + exists minolta_body, 0. split; [right; left; reflexivity|]. apply (is_written_ok 10 true minolta_body 8 minolta_plan). vm_compute. reflexivity.
  - eexists (firstn 3 (minolta_header _)), _. split; [reflexivity|cbn; lia].
  - apply bytes_check. destruct packed; vm_compute; reflexivity.
  - destruct packed; vm_compute; reflexivity.
  - split; first [member|apply prints_ok; vm_compute; reflexivity].
  - left. exists 6. split; [number|reflexivity].
  - exact H2.
  - exact H3.
  - lia.
  - reflexivity.
  - apply fits12_check. reflexivity.
  - destruct packed; [split|]; reflexivity.
  - exists img, cam. exact E.
Qed.

(** The last block must be longer than that: the levels of a camera that writes them
    last, in a block of just the size they need, are lost. *)
Theorem C63_last_block_refuted : forall (M : Mode) powf parse_f32, ~ (forall db l, loader_new db = Ok l ->
  forall blocks data w h packed a b c d t make model o cam samples rest,
  minolta_blocks blocks w h packed (a, b, c, d) t ->
  bytes (minolta_file blocks data) -> Z.of_nat (length (minolta_file blocks data)) + 16 < 2 ^ 32 ->
  names (visible [t]) make model -> has_orientation (visible [t]) o -> find_camera l make model "" = Some cam -> no_black_area cam ->
  0 < w -> Z.of_nat (length samples) = w * h -> Forall (Spec_Packed.fits 12) samples ->
  (if packed then Z.even w = true /\ data = pack 12 samples ++ rest else data = pack16 true samples ++ rest) ->
  exists img, lib_decode powf parse_f32 db (minolta_file blocks data) = Ok img /\
    (if find_hint cam "swapped_wb" then balance img c a b else balance img a b d)).
Proof. exact @levels_lost. Qed.
Print Assumptions C63_last_block_refuted.

(** ARRI: samples of 12 bits in words of 32; the levels are IEEE numbers.  The file
    does not say how the camera was held. *)
Theorem C63_arri : forall (M : Mode) powf parse_f32 db l, loader_new db = Ok l ->
  forall file model off w h r g b cam samples rest,
  arri_file file model off w h r g b -> from file off (swapped 4 (pack 12 samples) ++ rest) ->
  find_camera l "ARRI" model "" = Some cam -> no_black_area cam ->
  0 < w -> (w * h) mod 8 = 0 -> Z.of_nat (length samples) = w * h -> Forall (Spec_Packed.fits 12) samples ->
  exists img, lib_decode powf parse_f32 db file = Ok img /\ shows img cam (c_orientation cam) w h /\ i_data img = samples /\ i_blacks img = c_blacks cam /\
    ieee (fst (fst r)) (snd (fst r)) (snd r) (e0 (i_wb img)) /\ ieee (fst (fst g)) (snd (fst g)) (snd g) (e1 (i_wb img)) /\ ieee (fst (fst b)) (snd (fst b)) (snd b) (e2 (i_wb img)) /\ e3 (i_wb img) = B754_nan.
Proof. exact @arri_ok. Qed.
Print Assumptions C63_arri.
Definition arri_levels : list (bool * Z * Z) := [(false, 127, 4194304); (false, 127, 0); (false, 126, 2097152)].
Definition arri_head : list Z := Eval vm_compute in
  codes "ARRI" ++ [52; 18; 0; 0] ++ little 4 684 ++ repeat 1 8 ++ little 4 4 ++ little 4 2 ++ repeat 2 72 ++ flat_map (fun x => little 4 (float_bits x)) arri_levels ++ repeat 3 556 ++ codes_of "ALEXA" ++ [0] ++ repeat 4 10.
Definition arri_data : list Z := Eval vm_compute in swapped 4 (pack 12 [291; 1110; 1929; 2748; 3840; 460; 1383; 4095]) ++ [9].
Example C63_arri_ex : forall (M : Mode) powf parse_f32, exists img cam,
  lib_decode powf parse_f32 (one_camera "ARRI" "ALEXA" "") (arri_head ++ arri_data) = Ok img /\ shows img cam (c_orientation cam) 4 2 /\
  i_data img = [291; 1110; 1929; 2748; 3840; 460; 1383; 4095] /\ i_blacks img = c_blacks cam /\
  ieee false 127 4194304 (e0 (i_wb img)) /\ ieee false 127 0 (e1 (i_wb img)) /\ ieee false 126 2097152 (e2 (i_wb img)) /\ e3 (i_wb img) = B754_nan.
Proof.
  intros M powf parse_f32. destruct (camera_check M (one_camera "ARRI" "ALEXA" "") "ARRI" "ALEXA" "") as (l & cam & H1 & H2 & H3 & _); [destruct M; lazy; reflexivity|].
  edestruct (C63_arri M powf parse_f32 _ l H1 (arri_head ++ arri_data) "ALEXA" 684 4 2 (false, 127, 4194304) (false, 127, 0) (false, 126, 2097152) cam [291; 1110; 1929; 2748; 3840; 460; 1383; 4095] [9]) as (img & E).
  - split; try (split; [apply is_placed_ok; vm_compute; reflexivity|first [split; lia|apply prints_ok; vm_compute; reflexivity|unfold float_ok; lia]]).
    + apply arri_check. vm_compute. reflexivity.
    + apply bytes_check. vm_compute. reflexivity.
  - apply from_app. vm_compute. reflexivity.
  - exact H2.
  - exact H3.
  - lia.
  - reflexivity.
  - reflexivity.
  - apply fits12_check. reflexivity.
  - exists img, cam. exact E.
Qed.
