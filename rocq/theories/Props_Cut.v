(** C68: a file that ends before its picture begins gives no picture. *)
From Coq Require Import String Ascii ZArith List Bool Reals Lia.
From Verif Require Import Base Num F32 Tiff Transform Image Camera Dispatch.
From Verif Require Import Spec_Bits Spec_Tiff Spec_Camera Spec_Known Spec_Meta Spec_File Spec_Image Spec_Tree Spec_TreeMore Spec_Naked Spec_Cut.
From Verif Require Import P_Srw3b P_File5 P_Tree6 P_Tree15 P_Cut1.
Import ListNotations.
Local Open Scope Z_scope.

(** Missing: the makers that say it in other ways; files that end less than 16 bytes before the picture or
    within it (C49). *)
Theorem C68_cut_partial : forall (M : Mode) powf parse_f32 db l, loader_new db = Ok l ->
  forall big ts make tag model file o cam, nested_photo l "" big ts make model file o cam -> In (make, tag) strip_makers -> ends_before_picture ts file make tag ->
  decode powf parse_f32 l file = Panic /\ lib_decode powf parse_f32 db file = Err "Caught a panic while decoding.".
Proof. exact @cut_short. Qed.
Print Assumptions C68_cut_partial.
Definition cut_layout := lay_out true AsPentax [text_field T_Make "PENTAX"; text_field T_Model "K10D"] (fun at_ => [mkfield T_ImageWidth 3 [6]; mkfield T_ImageLength 4 [2]; mkfield T_StripOffsets 4 [at_ + 20]]) [mkfield T_PefWB 3 [1; 2; 3; 4]].
Definition cut_head : list Z := Eval vm_compute in fst cut_layout.
Definition cut_trees : list tree := Eval vm_compute in map tree_of (snd cut_layout).
Example C68_cut_ex : forall (M : Mode) powf parse_f32, lib_decode powf parse_f32 (one_camera "PENTAX" "K10D" "") (cut_head ++ [1; 2; 3]) = Err "Caught a panic while decoding.".
Proof.
  intros M powf parse_f32. destruct (camera_check M (one_camera "PENTAX" "K10D" "") "PENTAX" "K10D" "") as (l & cam & H1 & H2 & H3 & _); [destruct M; lazy; reflexivity|].
  apply (C68_cut_partial M powf parse_f32 _ l H1 true cut_trees "PENTAX" T_StripOffsets "K10D" _ Unknown cam).
  - nested (snd cut_layout).
  - unfold strip_makers. repeat (first [apply in_eq|apply in_cons]).
  - eexists _, 6, 2, (Z.of_nat (length cut_head) + 20). split; [vm_compute; reflexivity|]. split; [number|]. split; [number|]. split; [split; [intros [G|G]; discriminate G|split; [discriminate|intros [G|[G|[G|[]]]]; discriminate G]]|]. split; [right; split; [vm_compute; tauto|split; [discriminate|reflexivity]]|]. rewrite app_length. cbn [length]. lia.
Qed.

(** Makers that keep several pictures *)
Theorem C68_cut_wide : forall (M : Mode) powf parse_f32 db l, loader_new db = Ok l ->
  forall big ts make tag raw model file h start o cam, nested_photo l "" big ts make model file o cam ->
  make = "KODAK"%string /\ tag = T_StripOffsets \/ make = "NIKON"%string /\ tag = T_CFAPattern ->
  first_wide ts tag raw -> has_number (visible [raw]) T_ImageLength h -> has_number (visible [raw]) T_StripOffsets start -> Z.of_nat (length file) + 16 < start ->
  decode powf parse_f32 l file = Panic /\ lib_decode powf parse_f32 db file = Err "Caught a panic while decoding.".
Proof. exact @cut_wide. Qed.
Print Assumptions C68_cut_wide.
Definition wide_layout := lay_out false AsPlain [text_field T_Make "NIKON"; text_field T_Model "P7000"; mkfield T_ImageWidth 3 [160]; mkfield T_CFAPattern 1 [1; 1; 1; 1]]
  (fun at_ => [mkfield T_ImageWidth 3 [1002]; mkfield T_ImageLength 4 [2]; mkfield T_StripOffsets 4 [9000]; mkfield T_CFAPattern 1 [0; 1; 1; 2]]) [mkfield T_ImageWidth 3 [2000]].
Definition wide_head : list Z := Eval vm_compute in fst wide_layout.
Definition wide_trees : list tree := Eval vm_compute in map tree_of (snd wide_layout).
Example C68_cut_wide_ex : forall (M : Mode) powf parse_f32, lib_decode powf parse_f32 (one_camera "NIKON" "P7000" "") (wide_head ++ [1; 2; 3]) = Err "Caught a panic while decoding.".
Proof.
  intros M powf parse_f32. destruct (camera_check M (one_camera "NIKON" "P7000" "") "NIKON" "P7000" "") as (l & cam & H1 & H2 & H3 & _); [destruct M; lazy; reflexivity|].
  eapply (C68_cut_wide M powf parse_f32 _ l H1 false wide_trees "NIKON" T_CFAPattern _ "P7000" _ 2 9000 Unknown cam).
  - nested (snd wide_layout).
  - right. split; reflexivity.
  - eexists [_], _. split; [vm_compute; reflexivity|]. split; [apply Forall_cons; [exists 160; split; [number|lia]|apply Forall_nil]|exists 1002; split; [number|lia]].
  - number.
  - number.
  - vm_compute. reflexivity.
Qed.

(** Kodak's EasyShare cameras *)
Theorem C68_cut_easyshare : forall (M : Mode) powf parse_f32 db l, loader_new db = Ok l ->
  forall big ts model file w h o cam vs, nested_photo l "" big ts "EASTMAN KODAK COMPANY" model file o cam ->
  has_number (visible ts) T_KdcWidth w -> has_number (visible ts) T_KdcLength h -> has_numbers (visible ts) T_KdcOffset vs -> 13 <= Z.of_nat (length vs) ->
  Z.of_nat (length file) + 16 < easyshare_start cam vs ->
  decode powf parse_f32 l file = Panic /\ lib_decode powf parse_f32 db file = Err "Caught a panic while decoding.".
Proof. exact @cut_easyshare. Qed.
Print Assumptions C68_cut_easyshare.
Definition places_layout := lay_out true AsPlain [text_field T_Make "EASTMAN KODAK COMPANY"; text_field T_Model "Z980"; mkfield T_ImageWidth 3 [5]]
  (fun at_ => [mkfield T_KdcWidth 4 [2]; mkfield T_KdcLength 4 [1]; mkfield T_KdcOffset 4 [1; 2; 3; 4; 5000; 6; 7; 8; 9; 10; 11; 12; 70000]]) [mkfield T_KdcWB 3 [400; 256; 300]].
Definition places_head : list Z := Eval vm_compute in fst places_layout.
Definition places_trees : list tree := Eval vm_compute in map tree_of (snd places_layout).
Example C68_cut_easyshare_ex : forall (M : Mode) powf parse_f32, lib_decode powf parse_f32 (one_camera "EASTMAN KODAK COMPANY" "Z980" "") (places_head ++ [1; 2; 3]) = Err "Caught a panic while decoding.".
Proof.
  intros M powf parse_f32. destruct (camera_check M (one_camera "EASTMAN KODAK COMPANY" "Z980" "") "EASTMAN KODAK COMPANY" "Z980" "") as (l & cam & H1 & H2 & H3 & _); [destruct M; lazy; reflexivity|].
  apply (C68_cut_easyshare M powf parse_f32 _ l H1 true places_trees "Z980" _ 2 1 Unknown cam [1; 2; 3; 4; 5000; 6; 7; 8; 9; 10; 11; 12; 70000]).
  - nested (snd places_layout).
  - number.
  - number.
  - right. split; [member|repeat (apply Forall_cons; [lia|]); constructor].
  - vm_compute. discriminate.
  - unfold easyshare_start. destruct (find_hint cam "easyshare_offset_hack"); vm_compute; reflexivity.
Qed.

(** Sixteen bytes are not enough to be sure: some Coolpix files that end just these
    sixteen bytes before the picture decode to a black picture, of any size. *)
Theorem C68_black_refuted : forall (M : Mode) powf parse_f32 db l, loader_new db = Ok l ->
  forall big ts raw model file w h o cam, nested_photo l "" big ts "NIKON" model file o cam ->
  find_hint cam "coolpixsplit" = false -> find_hint cam "msb32" = true -> find_hint cam "nowb" = true -> 0 < h ->
  first_wide ts T_CFAPattern raw -> has_number (visible [raw]) T_ImageWidth w -> has_number (visible [raw]) T_ImageLength h -> has_number (visible [raw]) T_StripOffsets (Z.of_nat (length file) + 16) ->
  exists img, lib_decode powf parse_f32 db file = Ok img /\ shows img cam o w h /\ i_data img = zeros (w * h).
Proof. exact @cut_black. Qed.
Print Assumptions C68_black_refuted.
Definition black_layout := lay_out false AsPlain [text_field T_Make "NIKON"; text_field T_Model "P6000"; mkfield T_ImageWidth 3 [160]; mkfield T_CFAPattern 1 [1; 1; 1; 1]]
  (fun at_ => [mkfield T_ImageWidth 3 [1008]; mkfield T_ImageLength 4 [700]; mkfield T_StripOffsets 4 [at_ + 17]; mkfield T_CFAPattern 1 [0; 1; 1; 2]]) [mkfield T_ImageWidth 3 [2000]].
Definition black_head : list Z := Eval vm_compute in fst black_layout.
Definition black_trees : list tree := Eval vm_compute in map tree_of (snd black_layout).
Example C68_black_ex : forall (M : Mode) powf parse_f32, exists img cam, lib_decode powf parse_f32 (with_hint "NIKON" "P6000" ["msb32"; "nowb"]%string) (black_head ++ [5]) = Ok img /\ shows img cam Unknown 1008 700 /\ i_data img = zeros (1008 * 700).
Proof.
  intros M powf parse_f32. destruct (coolpix_check M (with_hint "NIKON" "P6000" ["msb32"; "nowb"]%string) "NIKON" "P6000" false true true) as (l & cam & H1 & H2 & H3 & H4 & H5 & H6); [destruct M; lazy; reflexivity|].
  edestruct (C68_black_refuted M powf parse_f32 _ l H1 false black_trees) with (model := "P6000"%string) (file := black_head ++ [5]) (w := 1008) (h := 700) (o := Unknown) (cam := cam) as (img & E).
  - nested (snd black_layout).
  - exact H4.
  - exact H5.
  - exact H6.
  - lia.
  - eexists [_], _. split; [vm_compute; reflexivity|]. split; [apply Forall_cons; [exists 160; split; [number|lia]|apply Forall_nil]|exists 1008; split; [number|lia]].
  - number.
  - number.
  - right. split; [vm_compute; tauto|split; [discriminate|reflexivity]].
  - exists img, cam. exact E.
Qed.
