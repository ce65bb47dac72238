(** C67: a Sony file whose picture is stored as plain numbers, packed, in blocks or
    the oldest way decodes to that picture, and the white balance is the one of the hidden directory. *)
From Coq Require Import String Ascii ZArith List Bool Reals Lia.
From Flocq Require Import Core BinarySingleNaN.
From Verif Require Import Base Num F32 Tiff Transform Image Camera Clients Dispatch.
From Verif Require Import Spec_Bits Spec_Image Spec_Packed Spec_Tiff Spec_Camera Spec_Known Spec_Meta Spec_File Spec_Tree Spec_SonyFile.
From Verif Require Import P_Base P_Srw3b P_File5 P_Tree6 P_Tree15 P_SonyFile1 P_SonyFile2.
Import ListNotations.
Local Open Scope Z_scope.

(** Missing: the two kinds of cameras that do not say where
    their pictures are. *)
Theorem C67_sony_partial : forall (M : Mode) powf parse_f32 db l, loader_new db = Ok l ->
  forall big ts raw model file w h count bps o cam data height is_picture r g b,
  nested_photo l "" big ts "SONY" model file o cam ->
  picture_at ts file T_StripOffsets T_ImageWidth T_ImageLength T_StripOffsets raw w h data ->
  has_number (visible [raw]) T_StripByteCounts count -> sony_bits cam (visible [raw]) bps ->
  sony_stored cam (visible [raw]) w h count bps data height is_picture -> 0 < w -> sony_white big ts file r g b ->
  exists img, lib_decode powf parse_f32 db file = Ok img /\ shows img cam o w height /\ is_picture (i_data img) /\ i_blacks img = c_blacks cam /\ balance img r g b.
Proof. exact @sony_file. Qed.
Print Assumptions C67_sony_partial.
Definition sony_made := Eval vm_compute in sony_layout 12 123456789 (sony_area T_SonyGRBG sony_base).
Definition sony_head : list Z := Eval vm_compute in fst (fst sony_made).
Definition sony_trees : list tree := Eval vm_compute in map tree_of (snd (fst sony_made)).
Definition sony_samples : list Z := [100; 4000; 7; 2048; 1; 2; 3; 4095].
Definition sony_data : list Z := Eval vm_compute in pack_lsb 12 sony_samples ++ [9].
Example C67_sony_ex : forall (M : Mode) powf parse_f32, exists img cam,
  lib_decode powf parse_f32 (with_hint "SONY" "A700" []) (sony_head ++ sony_data) = Ok img /\ shows img cam Unknown 4 2 /\ i_data img = [100; 4000; 7; 2048; 1; 2; 3; 4095] /\ balance img 600 256 400.
Proof.
  intros M powf parse_f32. destruct (bits_check M (with_hint "SONY" "A700" []) "SONY" "A700") as (l & cam & H1 & H2 & H3 & H4); [destruct M; lazy; reflexivity|].
  edestruct (C67_sony_partial M powf parse_f32 _ l H1 false sony_trees) with (model := "A700"%string) (file := sony_head ++ sony_data) (w := 4) (h := 2) (count := 12) (bps := 12) (o := Unknown) (cam := cam) (data := sony_data) (height := 2)
    (is_picture := fun image => image = sony_samples) (r := 600) (g := 256) (b := 400) as (img & E1 & E2 & E3 & _ & E5).
  - nested (snd (fst sony_made)).
  - in_place.
  - number.
  - right. split; [exact H4|number].
  - apply (sony_packed _ _ _ _ _ _ sony_samples [9]); [number|reflexivity|reflexivity|reflexivity|reflexivity|apply fits12_check; reflexivity].
  - lia.
  - exists sony_base, (sony_area T_SonyGRBG sony_base), (map fst (sony_levels T_SonyGRBG)). split; [hidden_part (snd sony_made) (sony_area T_SonyGRBG sony_base)|].
    split; [apply own_check; vm_compute; reflexivity|]. left. exists [256]. apply numbers_check; [member|reflexivity].
  - exists img, cam. auto.
Qed.

(** The oldest coding: ten rows, two in the directory *)
Definition old_made := Eval vm_compute in sony_layout (Z.of_nat (length old_data)) 5 (sony_area T_SonyRGGB sony_base).
Definition old_head : list Z := Eval vm_compute in fst (fst old_made).
Definition old_trees : list tree := Eval vm_compute in map tree_of (snd (fst old_made)).
Example C67_old_ex : forall (M : Mode) powf parse_f32, exists img cam,
  lib_decode powf parse_f32 (with_hint "SONY" "A700" []) (old_head ++ old_data) = Ok img /\ shows img cam Unknown 4 10 /\ is_image (i_data img) 4 10 old_picture /\ balance img 256 600 256.
Proof.
  intros M powf parse_f32. destruct (bits_check M (with_hint "SONY" "A700" []) "SONY" "A700") as (l & cam & H1 & H2 & H3 & H4); [destruct M; lazy; reflexivity|].
  edestruct (C67_sony_partial M powf parse_f32 _ l H1 false old_trees) with (model := "A700"%string) (file := old_head ++ old_data) (w := 4) (h := 2) (count := Z.of_nat (length old_data)) (bps := 12) (o := Unknown) (cam := cam) (data := old_data) (height := 2 + 8)
    (is_picture := fun image => is_image image 4 (2 + 8) old_picture) (r := 256) (g := 600) (b := 256) as (img & E1 & E2 & E3 & _ & E5).
  - nested (snd (fst old_made)).
  - in_place.
  - number_of.
  - right. split; [exact H4|number].
  - eapply sony_old; [number|discriminate|reflexivity| |vm_compute; reflexivity].
    intros r c _ _. unfold old_picture. change (2 ^ 16) with 65536. pose proof (Z.mod_pos_bound (3000 * r + 17 * c) 4096). lia.
  - lia.
  - exists sony_base, (sony_area T_SonyRGGB sony_base), (map fst (sony_levels T_SonyRGGB)). split; [hidden_part (snd old_made) (sony_area T_SonyRGGB sony_base)|].
    split; [apply own_check; vm_compute; reflexivity|]. right. split; [absent|]. exists 400, []. apply numbers_check; [member|reflexivity].
  - exists img, cam. auto.
Qed.

(** Without the levels of white, there is no picture. *)
Theorem C67_no_levels : forall (M : Mode) powf parse_f32 db l, loader_new db = Ok l ->
  forall big ts raw model file w h count bps o cam data height is_picture,
  nested_photo l "" big ts "SONY" model file o cam ->
  picture_at ts file T_StripOffsets T_ImageWidth T_ImageLength T_StripOffsets raw w h data ->
  has_number (visible [raw]) T_StripByteCounts count -> sony_bits cam (visible [raw]) bps ->
  sony_stored cam (visible [raw]) w h count bps data height is_picture -> 0 < w -> sony_no_white big ts file ->
  lib_decode powf parse_f32 db file = Err "ARW: Couldn't find GRGB or RGGB levels".
Proof. exact @sony_no_levels. Qed.
Print Assumptions C67_no_levels.
Definition other_made := Eval vm_compute in sony_layout 12 77 (sony_area T_SonyCurve sony_base).
Definition other_head : list Z := Eval vm_compute in fst (fst other_made).
Definition other_trees : list tree := Eval vm_compute in map tree_of (snd (fst other_made)).
Example C67_no_levels_ex : forall (M : Mode) powf parse_f32, lib_decode powf parse_f32 (with_hint "SONY" "A700" []) (other_head ++ sony_data) = Err "ARW: Couldn't find GRGB or RGGB levels".
Proof.
  intros M powf parse_f32. destruct (bits_check M (with_hint "SONY" "A700" []) "SONY" "A700") as (l & cam & H1 & H2 & H3 & H4); [destruct M; lazy; reflexivity|].
  eapply (C67_no_levels M powf parse_f32 _ l H1 false other_trees) with (model := "A700"%string) (w := 4) (h := 2) (count := 12) (bps := 12) (o := Unknown) (cam := cam) (data := sony_data) (height := 2) (is_picture := fun image => image = sony_samples).
  - nested (snd (fst other_made)).
  - in_place.
  - number.
  - right. split; [exact H4|number].
  - apply (sony_packed _ _ _ _ _ _ sony_samples [9]); [number|reflexivity|reflexivity|reflexivity|reflexivity|apply fits12_check; reflexivity].
  - lia.
  - exists sony_base, (sony_area T_SonyCurve sony_base), (map fst (sony_levels T_SonyCurve)). split; [hidden_part (snd other_made) (sony_area T_SonyCurve sony_base)|].
    split; [apply own_check; vm_compute; reflexivity|]. split; absent.
Qed.

(** Nor is there one without the private directory. *)
Theorem C67_no_private : forall (M : Mode) powf parse_f32 db l, loader_new db = Ok l ->
  forall big ts raw model file w h count bps o cam data height is_picture,
  nested_photo l "" big ts "SONY" model file o cam ->
  picture_at ts file T_StripOffsets T_ImageWidth T_ImageLength T_StripOffsets raw w h data ->
  has_number (visible [raw]) T_StripByteCounts count -> sony_bits cam (visible [raw]) bps ->
  sony_stored cam (visible [raw]) w h count bps data height is_picture -> 0 < w -> has_no (visible ts) T_DNGPrivateArea ->
  lib_decode powf parse_f32 db file = Err "Couldn't find tag".
Proof. exact @sony_no_private. Qed.
Print Assumptions C67_no_private.
Definition bare_head : list Z := Eval vm_compute in fst sony_bare.
Definition bare_trees : list tree := Eval vm_compute in map tree_of (snd sony_bare).
Example C67_no_private_ex : forall (M : Mode) powf parse_f32, lib_decode powf parse_f32 (with_hint "SONY" "A700" []) (bare_head ++ sony_data) = Err "Couldn't find tag".
Proof.
  intros M powf parse_f32. destruct (bits_check M (with_hint "SONY" "A700" []) "SONY" "A700") as (l & cam & H1 & H2 & H3 & H4); [destruct M; lazy; reflexivity|].
  eapply (C67_no_private M powf parse_f32 _ l H1 false bare_trees) with (model := "A700"%string) (w := 4) (h := 2) (count := 12) (bps := 12) (o := Unknown) (cam := cam) (data := sony_data) (height := 2) (is_picture := fun image => image = sony_samples).
  - nested (snd sony_bare).
  - in_place.
  - number.
  - right. split; [exact H4|number].
  - apply (sony_packed _ _ _ _ _ _ sony_samples [9]); [number|reflexivity|reflexivity|reflexivity|reflexivity|apply fits12_check; reflexivity].
  - lia.
  - absent.
Qed.

(** If what was hidden is no directory, the decoder crashes. *)
Theorem C67_damaged_refuted : forall (M : Mode) powf parse_f32 db l, loader_new db = Ok l ->
  forall big ts raw model file w h count bps o cam data height is_picture,
  nested_photo l "" big ts "SONY" model file o cam ->
  picture_at ts file T_StripOffsets T_ImageWidth T_ImageLength T_StripOffsets raw w h data ->
  has_number (visible [raw]) T_StripByteCounts count -> sony_bits cam (visible [raw]) bps ->
  sony_stored cam (visible [raw]) w h count bps data height is_picture -> 0 < w -> sony_damaged big ts file ->
  decode powf parse_f32 l file = Panic /\ lib_decode powf parse_f32 db file = Err "Caught a panic while decoding.".
Proof. exact @sony_bad_levels. Qed.
Print Assumptions C67_damaged_refuted.
Definition damaged_made := Eval vm_compute in sony_layout 12 78 [255; 200; 3; 4; 5; 6; 7; 8].
Definition damaged_head : list Z := Eval vm_compute in fst (fst damaged_made).
Definition damaged_trees : list tree := Eval vm_compute in map tree_of (snd (fst damaged_made)).
Example C67_damaged_ex : forall (M : Mode) powf parse_f32, lib_decode powf parse_f32 (with_hint "SONY" "A700" []) (damaged_head ++ sony_data) = Err "Caught a panic while decoding.".
Proof.
  intros M powf parse_f32. destruct (bits_check M (with_hint "SONY" "A700" []) "SONY" "A700") as (l & cam & H1 & H2 & H3 & H4); [destruct M; lazy; reflexivity|].
  eapply (C67_damaged_refuted M powf parse_f32 _ l H1 false damaged_trees) with (model := "A700"%string) (w := 4) (h := 2) (count := 12) (bps := 12) (o := Unknown) (cam := cam) (data := sony_data) (height := 2) (is_picture := fun image => image = sony_samples).
  - nested (snd (fst damaged_made)).
  - in_place.
  - number.
  - right. split; [exact H4|number].
  - apply (sony_packed _ _ _ _ _ _ sony_samples [9]); [number|reflexivity|reflexivity|reflexivity|reflexivity|apply fits12_check; reflexivity].
  - lia.
  - exists sony_base, [255; 200; 3; 4; 5; 6; 7; 8], 51455. split; [hidden_part (snd damaged_made) [255; 200; 3; 4; 5; 6; 7; 8]|]. split; [apply is_placed_ok; reflexivity|split; reflexivity].
Qed.

(** So it does if the hidden part goes on after the end of the file. *)
Theorem C67_cut_refuted : forall (M : Mode) powf parse_f32 db l, loader_new db = Ok l ->
  forall big ts raw model file w h count bps o cam data height is_picture,
  nested_photo l "" big ts "SONY" model file o cam ->
  picture_at ts file T_StripOffsets T_ImageWidth T_ImageLength T_StripOffsets raw w h data ->
  has_number (visible [raw]) T_StripByteCounts count -> sony_bits cam (visible [raw]) bps ->
  sony_stored cam (visible [raw]) w h count bps data height is_picture -> 0 < w -> sony_cut big ts file ->
  decode powf parse_f32 l file = Panic /\ lib_decode powf parse_f32 db file = Err "Caught a panic while decoding.".
Proof. exact @sony_cut_levels. Qed.
Print Assumptions C67_cut_refuted.
Definition short_made := Eval vm_compute in sony_short 50.
Definition short_head : list Z := Eval vm_compute in fst (fst short_made).
Definition short_trees : list tree := Eval vm_compute in map tree_of (snd (fst short_made)).
Example C67_cut_ex : forall (M : Mode) powf parse_f32, lib_decode powf parse_f32 (with_hint "SONY" "A700" []) (short_head ++ sony_data) = Err "Caught a panic while decoding.".
Proof.
  intros M powf parse_f32. destruct (bits_check M (with_hint "SONY" "A700" []) "SONY" "A700") as (l & cam & H1 & H2 & H3 & H4); [destruct M; lazy; reflexivity|].
  eapply (C67_cut_refuted M powf parse_f32 _ l H1 false short_trees) with (model := "A700"%string) (w := 4) (h := 2) (count := 12) (bps := 12) (o := Unknown) (cam := cam) (data := sony_data) (height := 2) (is_picture := fun image => image = sony_samples).
  - nested (snd (fst short_made)).
  - in_place.
  - number.
  - right. split; [exact H4|number].
  - apply (sony_packed _ _ _ _ _ _ sony_samples [9]); [number|reflexivity|reflexivity|reflexivity|reflexivity|apply fits12_check; reflexivity].
  - lia.
  - exists sony_pos, 0, (tree_of (snd short_made)), sony_base, 50, 99. split; [member|]. split; [split; [discriminate|reflexivity]|].
    split; [apply (is_written_ok 10 false _ _ (snd short_made)); vm_compute; reflexivity|]. split; [number_of|]. split; [number_of|]. split; [number_of|]. vm_compute; reflexivity.
Qed.
