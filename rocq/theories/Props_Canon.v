(** C57: whole files of Canon cameras.  The samples are in a lossless JPEG, which may
    be cut into stripes; the white balance is in one of three fields.  Small pictures
    hold brightness and colour differences instead, and decode to colours.

    As in C53, all files have one directory and come from cameras whose pictures have
    no masked areas. *)
From Coq Require Import String Ascii ZArith List Bool Reals Lia.
From Verif Require Import Base Num F32 Tiff Transform Image Camera Clients Dispatch.
From Verif Require Import Spec_Bits Spec_Image Spec_Stream Spec_Huffman Spec_Ljpeg Spec_Sensor Spec_Tiff Spec_Camera Spec_Known Spec_Meta Spec_File Spec_Dng Spec_Canon.
From Verif Require Import P_Srw3b P_Crw4 P_Ljpeg7 P_File5 P_Dng4 P_Canon P_Canon2 P_Canon3.
Import ListNotations.
Local Open Scope Z_scope.

(** Pictures of the sensor.  [n] is the number of components of the JPEG, at least two. *)
Theorem C57_sensor : forall (M : Mode) powf parse_f32 db l, loader_new db = Ok l ->
  forall big fs model gap data file o cam n jw h jpeg pic b,
  photo l "" big fs "Canon" model T_StripOffsets gap data file o cam ->
  In T_Cr2Id (map f_tag fs) \/ In T_CFAPattern (map f_tag fs) ->
  find_hint cam "linearization" = false -> find_hint cam "double_line" = false ->
  holds_jpeg debug n jw h jpeg data -> canon_picture fs n (n * jw) h jpeg pic -> canon_balance fs cam b ->
  exists img, lib_decode powf parse_f32 db file = Ok img /\ shows img cam o (n * jw) h /\ is_image (i_data img) (n * jw) h pic /\
    i_blacks img = c_blacks cam /\ has_balance img b.
Proof. exact @canon_file. Qed.
Print Assumptions C57_sensor.
(** Two stripes, of three columns and of one *)
Definition canon_fields (at_ : Z) : list field := [text_field T_Make "Canon"; text_field T_Model "EOS"; mkfield T_StripOffsets 4 [at_]; mkfield T_Cr2Id 4 [0];
  mkfield T_Cr2StripeWidths 3 [1; 3; 1]; mkfield T_Cr2PowerShotWB 4 [0; 0; 1024; 2000; 1500]; mkfield T_Orientation 3 [6]].
Example C57_sensor_ex : forall (M : Mode) powf parse_f32, exists img cam,
  lib_decode powf parse_f32 (one_camera "Canon" "EOS" "") (tiff_file true (canon_fields 131) ++ [9] ++ jpeg_sample) = Ok img /\
  shows img cam Rotate90 4 2 /\ i_data img = [8192; 8189; 8194; 8195; 8191; 8193; 8190; 8192] /\ balance img 2000 1024 1500.
Proof.
  intros M powf parse_f32. destruct (canon_check M (one_camera "Canon" "EOS" "") "EOS") as (l & cam & H1 & H2 & H3 & H4 & H5 & H6 & _); [destruct M; lazy; reflexivity|].
  destruct (C57_sensor M powf parse_f32 _ l H1 true (canon_fields 131) "EOS" [9] jpeg_sample (tiff_file true (canon_fields 131) ++ [9] ++ jpeg_sample) Rotate90 cam 2 2 2 jpeg_picture
    (fun r c => nth (Z.to_nat (4 * r + c)) [8192; 8189; 8194; 8195; 8191; 8193; 8190; 8192] 0) (Some (2000, 1024, 1500)))
    as (img & E1 & E2 & E3 & _ & E5); [turned 6|left; member|exact H5|exact H6|apply jpeg_held; constructor| | |].
  - left. exists 1, 3, 1. split; [numbers|]. split; [lia|]. split; [lia|]. split; [reflexivity|]. apply in_rows. vm_compute. reflexivity.
  - apply (by_powershot _ _ 0 0 1024 2000 1500 []); [absent|member|repeat (apply Forall_cons; [lia|]); constructor].
  - exists img, cam. split; [exact E1|]. split; [exact E2|]. split; [|exact E5].
    apply (image_list _ _ _ _ _ E3); [lia|reflexivity|vm_compute; reflexivity].
Qed.

(** Small pictures of [w] x [h] blocks of 2 x [v] pixels, with the white balance in the
    colour data. *)
Theorem C57_small_partial : forall (M : Mode) powf parse_f32 db l, loader_new db = Ok l ->
  forall big fs model gap data file o cam v w h jpeg pic vs p wr wg wg' wb,
  photo l "" big fs "Canon" model T_StripOffsets gap data file o cam ->
  In T_Cr2Id (map f_tag fs) \/ In T_CFAPattern (map f_tag fs) -> find_hint cam "linearization" = false ->
  has_number fs T_ImageWidth (2 * w) /\ has_number fs T_ImageLength (v * h) \/ has_no fs T_ImageWidth /\ v * h <= 2 * w ->
  In (mkfield T_Cr2ColorData 3 vs) fs -> samples vs -> p = (if c_wb_offset cam =? 0 then 63 else c_wb_offset cam) -> 0 <= p ->
  firstn 4 (skipn (Z.to_nat p) vs) = [wr; wg; wg'; wb] -> 56 <= wr -> wg <= 27948 -> 56 <= wb ->
  holds_small_jpeg debug v w h jpeg data ->
  arranged fs v w h (small_rgb wr wg wb (if find_hint cam "40d_yuv" then 512 else 0) v jpeg) pic ->
  exists img, lib_decode powf parse_f32 db file = Ok img /\ shows_colours img cam o (2 * w) (v * h) /\ is_image (i_data img) (6 * w) (v * h) pic /\
    balance img wr wg wb.
Proof. exact @canon_small_file. Qed.
Print Assumptions C57_small_partial.
(** One block of four pixels *)
Definition color_data : list Z := repeat 0 63 ++ [2000; 1024; 1024; 1500].
Definition small_fields (at_ : Z) : list field := [text_field T_Make "Canon"; text_field T_Model "EOS"; mkfield T_StripOffsets 4 [at_]; mkfield T_CFAPattern 1 [0; 1; 1; 2];
  mkfield T_Cr2ColorData 3 color_data; mkfield T_ImageWidth 3 [2]; mkfield T_ImageLength 3 [2]].
Example C57_small_ex : forall (M : Mode) powf parse_f32, exists img cam,
  lib_decode powf parse_f32 (one_camera "Canon" "EOS" "") (tiff_file false (small_fields 238) ++ [] ++ small_data []) = Ok img /\
  shows_colours img cam Unknown 2 2 /\ i_data img = [33517; 65535; 44716; 33513; 65535; 44711; 33509; 65535; 44705; 33505; 65532; 44700] /\ balance img 2000 1024 1500.
Proof.
  intros M powf parse_f32. destruct (canon_check M (one_camera "Canon" "EOS" "") "EOS") as (l & cam & H1 & H2 & H3 & H4 & H5 & _ & H7); [destruct M; lazy; reflexivity|].
  destruct (C57_small_partial M powf parse_f32 _ l H1 false (small_fields 238) "EOS" [] (small_data []) (tiff_file false (small_fields 238) ++ [] ++ small_data []) Unknown cam 2 1 1 small_pic
    (small_rgb 2000 1024 1500 0 2 small_pic) color_data 63 2000 1024 1024 1500)
    as (img & E1 & E2 & E3 & E4);
    [photograph|right; member|exact H5|left; split; number|member|small_samples|rewrite H4; reflexivity|lia|reflexivity|lia|lia|lia|apply small_held; constructor|rewrite H7; apply whole; absent|].
  exists img, cam. split; [exact E1|]. split; [exact E2|]. split; [|exact E4].
  apply (image_list _ _ _ _ _ E3); [lia|reflexivity|vm_compute; reflexivity].
Qed.
