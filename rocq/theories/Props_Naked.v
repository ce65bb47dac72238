(** C64: files without any header, which are known by their size alone, and files of
    Kodak's EasyShare cameras. *)
From Coq Require Import String Ascii ZArith List Bool Reals Lia.
From Flocq Require Import BinarySingleNaN.
From Verif Require Import Base Num F32 Tiff Transform Image Camera Clients Dispatch.
From Verif Require Import Spec_Bits Spec_Packed Spec_Tiff Spec_Camera Spec_Known Spec_Meta Spec_File Spec_Tree Spec_TreeMore Spec_Dispatch Spec_Naked.
From Verif Require Import P_Srw3b P_Packed2 P_Packed3 P_File5 P_Tree6 P_Tree15 P_Naked1 P_Naked2.
Import ListNotations.
Local Open Scope Z_scope.

(** A file that starts like none of the known kinds and has the size that the
    database gives for the files of a camera *)
Theorem C64_headerless : forall (M : Mode) powf parse_f32 db l, loader_new db = Ok l ->
  forall file cam w h samples, bytes file -> Z.of_nat (length file) < 2 ^ 61 -> container_of file NoSignature -> ~ tiff_like file ->
  find_naked l (Z.of_nat (length file)) = Some cam -> no_black_area cam -> c_raw_width cam = w -> c_raw_height cam = h -> 0 < w -> 0 < h ->
  bare_data cam (Z.of_nat (length file)) w h file samples ->
  exists img, lib_decode powf parse_f32 db file = Ok img /\ shows img cam (c_orientation cam) w h /\ i_data img = samples /\ i_blacks img = c_blacks cam /\
    i_wb img = V4 B754_nan B754_nan B754_nan B754_nan.
Proof. exact @bare_file. Qed.
Print Assumptions C64_headerless.
Definition bare_samples : list Z := [291; 1110; 1929; 2748; 3840; 460; 1383; 4095; 1; 2; 3; 4; 0; 2048; 7; 999].
Example C64_headerless_ex : forall (M : Mode) powf parse_f32, exists img cam,
  lib_decode powf parse_f32 (sized_camera 25 4 4 []) (swapped 2 (pack 12 bare_samples) ++ [9]) = Ok img /\
  shows img cam (c_orientation cam) 4 4 /\ i_data img = bare_samples.
Proof.
  intros M powf parse_f32. destruct (naked_check M (sized_camera 25 4 4 []) 25 4 4 false) as (l & cam & H1 & H2 & H3 & H4 & H5 & H6); [destruct M; lazy; reflexivity|].
  edestruct (bare_check (swapped 2 (pack 12 bare_samples) ++ [9])) as [K1 K2]; [vm_compute; reflexivity|].
  edestruct (C64_headerless M powf parse_f32 _ l H1 (swapped 2 (pack 12 bare_samples) ++ [9]) cam 4 4) as (img & E1 & E2 & E3 & _); try assumption; try lia.
  - apply bytes_check. vm_compute. reflexivity.
  - vm_compute. reflexivity.
  - change (Z.of_nat (length (swapped 2 (pack 12 bare_samples) ++ [9]))) with 25. apply (bare_12 cam 25 4 4); [exact H6|reflexivity|reflexivity|reflexivity|apply fits12_check; reflexivity].
  - exists img, cam. auto.
Qed.
Example C64_headerless_rows_ex : forall (M : Mode) powf parse_f32, exists img cam,
  lib_decode powf parse_f32 (sized_camera 9 2 2 ["12le_16bitaligned"%string]) (pack_rows 4 77 (pack 12) [[1; 4095]; [7; 256]] ++ [9]) = Ok img /\
  shows img cam (c_orientation cam) 2 2 /\ i_data img = [1; 4095; 7; 256].
Proof.
  intros M powf parse_f32. destruct (naked_check M (sized_camera 9 2 2 ["12le_16bitaligned"%string]) 9 2 2 true) as (l & cam & H1 & H2 & H3 & H4 & H5 & H6); [destruct M; lazy; reflexivity|].
  edestruct (bare_check (pack_rows 4 77 (pack 12) [[1; 4095]; [7; 256]] ++ [9])) as [K1 K2]; [vm_compute; reflexivity|].
  edestruct (C64_headerless M powf parse_f32 _ l H1 (pack_rows 4 77 (pack 12) [[1; 4095]; [7; 256]] ++ [9]) cam 2 2) as (img & E1 & E2 & E3 & _); try assumption; try lia.
  - apply bytes_check. vm_compute. reflexivity.
  - vm_compute. reflexivity.
  - apply (bare_rows cam _ 2 2 [[1; 4095]; [7; 256]] 77 [9]); [exact H6|reflexivity|unfold byte; lia|reflexivity|repeat constructor|repeat (apply Forall_cons; [apply fits12_check; reflexivity|]); constructor].
  - exists img, cam. auto.
Qed.

(** Kodak EasyShare: samples of 12 bits, packed.  The file gives the size without the
    masked margin of 80 columns and 70 rows. *)
Theorem C64_easyshare : forall (M : Mode) powf parse_f32 db l, loader_new db = Ok l ->
  forall big ts model file w h o cam vs samples rest W,
  nested_photo l "" big ts "EASTMAN KODAK COMPANY" model file o cam ->
  has_number (visible ts) T_KdcWidth w -> has_number (visible ts) T_KdcLength h -> has_numbers (visible ts) T_KdcOffset vs -> 13 <= Z.of_nat (length vs) ->
  from file (easyshare_start cam vs) (pack 12 samples ++ rest) -> Z.even w = true ->
  Z.of_nat (length samples) = (w + 80) * (h + 70) -> Forall (Spec_Packed.fits 12) samples -> easyshare_white big (visible ts) W ->
  exists img, lib_decode powf parse_f32 db file = Ok img /\ shows img cam o (w + 80) (h + 70) /\ i_data img = samples /\ i_blacks img = c_blacks cam /\
    W (e0 (i_wb img)) (e1 (i_wb img)) (e2 (i_wb img)) /\ e3 (i_wb img) = B754_nan.
Proof. exact @kdc_nested. Qed.
Print Assumptions C64_easyshare.
Definition easy_layout := lay_out true AsPlain [text_field T_Make "EASTMAN KODAK COMPANY"; text_field T_Model "Z980"; mkfield T_ImageWidth 3 [5]]
  (fun at_ => [mkfield T_KdcWidth 4 [2]; mkfield T_KdcLength 4 [1]; mkfield T_KdcOffset 4 [1; 2; 3; 4; at_ - 10; 6; 7; 8; 9; 10; 11; 12; 10]]) [mkfield T_KdcWB 3 [400; 256; 300]].
Definition easy_head : list Z := Eval vm_compute in fst easy_layout.
Definition easy_trees : list tree := Eval vm_compute in map tree_of (snd easy_layout).
Definition easy_places : list Z := Eval vm_compute in [1; 2; 3; 4; Z.of_nat (length easy_head) - 10; 6; 7; 8; 9; 10; 11; 12; 10].
Example C64_easyshare_ex : forall (M : Mode) powf parse_f32, exists img cam,
  lib_decode powf parse_f32 (with_hint "EASTMAN KODAK COMPANY" "Z980" []) (easy_head ++ pack 12 easy_samples ++ []) = Ok img /\
  shows img cam Unknown 82 71 /\ i_data img = easy_samples /\ i_blacks img = c_blacks cam /\ (nearest (e0 (i_wb img)) 400 /\ nearest (e1 (i_wb img)) 256 /\ nearest (e2 (i_wb img)) 300) /\ e3 (i_wb img) = B754_nan.
Proof.
  intros M powf parse_f32. destruct (easy_check M (with_hint "EASTMAN KODAK COMPANY" "Z980" []) "EASTMAN KODAK COMPANY" "Z980") as (l & cam & H1 & H2 & H3 & H4); [destruct M; lazy; reflexivity|].
  edestruct (C64_easyshare M powf parse_f32 _ l H1 true easy_trees "Z980" (easy_head ++ pack 12 easy_samples ++ []) 2 1 Unknown cam easy_places) as (img & E).
  - eapply (nested_check _ _ _ _ _ _ _ (snd easy_layout)); [vm_compute; reflexivity|vm_compute; reflexivity|rewrite app_nil_r, easy_bytes; lia|rewrite app_nil_r; apply pack_bytes|member|vm_compute; reflexivity|member|vm_compute; reflexivity|absent|discriminate|absent|assumption|assumption].
  - number.
  - number.
  - right. split; [member|repeat (apply Forall_cons; [lia|]); constructor].
  - vm_compute. discriminate.
  - unfold easyshare_start. rewrite H4. apply from_app. vm_compute. reflexivity.
  - reflexivity.
  - rewrite easy_length. reflexivity.
  - apply fits12_check. vm_compute. reflexivity.
  - apply (ew_numbers _ _ 400 256 300). left. split; [member|repeat (apply Forall_cons; [lia|]); constructor].
  - exists img, cam. exact E.
Qed.
