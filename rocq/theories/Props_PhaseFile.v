(** C65: Phase One files.  Their TIFF directories, which can be anywhere in the file,
    name the camera; a list of numbers of its own says where the picture is.  The
    whole file decodes to the picture that was coded. *)
From Coq Require Import String Ascii ZArith List Bool Reals Lia.
From Flocq Require Import Core BinarySingleNaN.
From Verif Require Import Base Num F32 Tiff Transform Image Camera Clients Dispatch.
From Verif Require Import Spec_Bits Spec_Image Spec_Packed Spec_Tiff Spec_Camera Spec_Known Spec_Meta Spec_File Spec_Tree Spec_Header Spec_Phase Spec_PhaseFile.
From Verif Require Import P_File5 P_PhaseFile1 P_PhaseFile2 Props_Pred2.
Import ListNotations.
Local Open Scope Z_scope.

Theorem C65_phase_one : forall (M : Mode) powf parse_f32 db l, loader_new db = Ok l ->
  forall big ts make model file o cam choice pic w h black r g b, In make ["Phase One A/S"; "Leaf"]%string ->
  nested_photo l "" big ts make model file o cam -> phase_photo file choice pic w h black r g b -> 0 < w -> 0 < h -> black < 2 ^ 18 ->
  exists img, lib_decode powf parse_f32 db file = Ok img /\ shows img cam o w h /\ is_image (i_data img) w h pic /\ i_blacks img = V4 (black / 4) (black / 4) (black / 4) (black / 4) /\
    ieee (fst (fst r)) (snd (fst r)) (snd r) (e0 (i_wb img)) /\ ieee (fst (fst g)) (snd (fst g)) (snd g) (e1 (i_wb img)) /\ ieee (fst (fst b)) (snd (fst b)) (snd b) (e2 (i_wb img)) /\ e3 (i_wb img) = B754_nan.
Proof. exact @phase_file_ok. Qed.
Print Assumptions C65_phase_one.
Example C65_phase_one_ex : forall (M : Mode) powf parse_f32, exists img cam,
  lib_decode powf parse_f32 (one_camera "Phase One A/S" "IQ180" "") phase_bytes = Ok img /\ shows img cam (from_u16 6) 17 2 /\ is_image (i_data img) 17 2 phase_picture /\
  i_blacks img = V4 256 256 256 256 /\ ieee false 127 4194304 (e0 (i_wb img)) /\ ieee false 127 0 (e1 (i_wb img)) /\ ieee false 126 2097152 (e2 (i_wb img)) /\ e3 (i_wb img) = B754_nan.
Proof.
  intros M powf parse_f32. destruct (camera_check M (one_camera "Phase One A/S" "IQ180" "") "Phase One A/S" "IQ180" "") as (l & cam & H1 & H2 & H3 & _); [destruct M; lazy; reflexivity|].
  destruct (C65_phase_one M powf parse_f32 _ l H1 false phase_trees "Phase One A/S" "IQ180" phase_bytes (from_u16 6) cam phase_choice phase_picture 17 2 1027
    (false, 127, 4194304) (false, 127, 0) (false, 126, 2097152) (or_introl eq_refl) (phase_nested l cam H2 H3) phase_whole) as (img & E); [lia|lia|reflexivity|].
  exists img, cam. exact E.
Qed.
