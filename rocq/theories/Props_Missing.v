(** C66: files that are laid out properly but cannot be decoded.  An unknown maker, an
    unknown camera and a missing picture are reported as such; Kodak's and Nikon's small
    cameras, whose files hold several pictures, crash when none of them is wide. *)
From Coq Require Import String Ascii ZArith List Bool Lia.
From Verif Require Import Base Num F32 Tiff Transform Image Camera Dispatch.
From Verif Require Import Spec_Bits Spec_Tiff Spec_Camera Spec_Known Spec_Meta Spec_File Spec_Tree Spec_TreeDng Spec_TreeMore Spec_Missing.
From Verif Require Import P_Srw3b P_File5 P_Tree3 P_Tree6 P_Tree15 P_Missing1 P_Missing2.
Import ListNotations.
Local Open Scope Z_scope.

(** A maker that is not on the list *)
Theorem C66_unknown_make : forall (M : Mode) powf parse_f32 db l, loader_new db = Ok l ->
  forall big ts make model file, named_file big ts make model file -> ~ In make (camera_first ++ camera_later) ->
  lib_decode powf parse_f32 db file = Err "Couldn't find a decoder for make".
Proof. exact @unknown_make. Qed.
Print Assumptions C66_unknown_make.
Definition odd_layout := lay_out true AsPlain [text_field T_Make "Kodac"; text_field T_Model "DCS420"] (fun at_ => [mkfield T_ImageWidth 3 [12]; mkfield T_StripOffsets 4 [at_]]) [mkfield T_ImageWidth 3 [5]].
Definition odd_head : list Z := Eval vm_compute in fst odd_layout.
Definition odd_trees : list tree := Eval vm_compute in map tree_of (snd odd_layout).
Example C66_unknown_make_ex : forall (M : Mode) powf parse_f32, lib_decode powf parse_f32 (one_camera "Kodac" "DCS420" "") (odd_head ++ [1; 2; 3]) = Err "Couldn't find a decoder for make".
Proof.
  intros M powf parse_f32. destruct (camera_check M (one_camera "Kodac" "DCS420" "") "Kodac" "DCS420" "") as (l & cam & H1 & _ & _ & _); [destruct M; lazy; reflexivity|].
  apply (C66_unknown_make M powf parse_f32 _ l H1 true odd_trees "Kodac" "DCS420").
  - split; [apply (is_head_ok true odd_head (snd odd_layout)); [vm_compute; reflexivity|vm_compute; reflexivity|apply bytes_check; vm_compute; reflexivity]|split; [member|apply prints_ok; vm_compute; reflexivity|member|apply prints_ok; vm_compute; reflexivity]|absent|discriminate].
  - cbn. intuition discriminate.
Qed.

(** A camera that the database does not have; [find_camera] is what C29 is about. *)
Theorem C66_unknown_camera_partial : forall (M : Mode) powf parse_f32 db l, loader_new db = Ok l ->
  forall big ts make model file, named_file big ts make model file -> In make camera_first -> find_camera l make model "" = None ->
  lib_decode powf parse_f32 db file = Err "Couldn't find camera".
Proof. exact @unknown_camera. Qed.
Print Assumptions C66_unknown_camera_partial.
Definition new_layout := lay_out true AsPlain [text_field T_Make "PENTAX"; text_field T_Model "K-99"] (fun at_ => [mkfield T_ImageWidth 3 [12]; mkfield T_StripOffsets 4 [at_]]) [mkfield T_ImageWidth 3 [5]].
Definition new_head : list Z := Eval vm_compute in fst new_layout.
Definition new_trees : list tree := Eval vm_compute in map tree_of (snd new_layout).
Example C66_unknown_camera_ex : forall (M : Mode) powf parse_f32, lib_decode powf parse_f32 (one_camera "PENTAX" "K-98" "") (new_head ++ [1; 2; 3]) = Err "Couldn't find camera".
Proof.
  intros M powf parse_f32. destruct (camera_check M (one_camera "PENTAX" "K-98" "") "PENTAX" "K-98" "") as (l & cam & H1 & _ & _ & _); [destruct M; lazy; reflexivity|].
  apply (C66_unknown_camera_partial M powf parse_f32 _ l H1 true new_trees "PENTAX" "K-99").
  - split; [apply (is_head_ok true new_head (snd new_layout)); [vm_compute; reflexivity|vm_compute; reflexivity|apply bytes_check; vm_compute; reflexivity]|split; [member|apply prints_ok; vm_compute; reflexivity|member|apply prints_ok; vm_compute; reflexivity]|absent|discriminate].
  - repeat (first [apply in_eq|apply in_cons]).
  - destruct M; lazy in H1; injection H1 as <-; reflexivity.
Qed.

(** No directory with a picture *)
Theorem C66_no_picture_partial : forall (M : Mode) powf parse_f32 db l, loader_new db = Ok l ->
  forall big ts make tag model mode file o cam, nested_photo l mode big ts make model file o cam -> In (make, tag) picture_tag -> mode = ""%string \/ make = "NIKON CORPORATION"%string ->
  has_no (visible ts) tag -> lib_decode powf parse_f32 db file = Err "Couldn't find ifd with tag".
Proof. exact @no_picture. Qed.
Print Assumptions C66_no_picture_partial.
Example C66_no_picture_ex : forall (M : Mode) powf parse_f32, exists file, Forall byte file /\
  lib_decode powf parse_f32 (one_camera "Hasselblad" "H3D" "") file = Err "Couldn't find ifd with tag".
Proof.
  intros M powf parse_f32. destruct (camera_check M (one_camera "Hasselblad" "H3D" "") "Hasselblad" "H3D" "") as (l & cam & H1 & H2 & H3 & _); [destruct M; lazy; reflexivity|].
  set (lay := lay_out true AsPlain [text_field T_Make "Hasselblad"; text_field T_Model "H3D"] (fun at_ => [mkfield T_ImageWidth 3 [12]; mkfield T_StripOffsets 4 [at_]]) [mkfield T_ImageWidth 3 [5]]).
  exists (fst lay ++ [1; 2; 3]). split; [apply bytes_check; vm_compute; reflexivity|].
  apply (C66_no_picture_partial M powf parse_f32 _ l H1 true (map tree_of (snd lay)) "Hasselblad" T_WhiteLevel "H3D" "" _ Unknown cam).
  - nested (snd lay).
  - repeat (first [apply in_eq|apply in_cons]).
  - left. reflexivity.
  - absent.
Qed.

(** Makers that have more than one place for the picture *)
Theorem C66_nowhere : forall (M : Mode) powf parse_f32 db l, loader_new db = Ok l ->
  forall big ts make tags message model mode file o cam, nested_photo l mode big ts make model file o cam -> picture_elsewhere mode cam make tags message ->
  Forall (has_no (visible ts)) tags -> lib_decode powf parse_f32 db file = Err message.
Proof. exact @missing_elsewhere. Qed.
Print Assumptions C66_nowhere.
Example C66_nowhere_ex : forall (M : Mode) powf parse_f32, exists file, Forall byte file /\
  lib_decode powf parse_f32 (one_camera "Canon" "EOS" "") file = Err "CR2: Couldn't find raw info".
Proof.
  intros M powf parse_f32. destruct (camera_check M (one_camera "Canon" "EOS" "") "Canon" "EOS" "") as (l & cam & H1 & H2 & H3 & _); [destruct M; lazy; reflexivity|].
  set (lay := lay_out false AsPlain [text_field T_Make "Canon"; text_field T_Model "EOS"] (fun at_ => [mkfield T_ImageWidth 3 [12]; mkfield T_StripOffsets 4 [at_]]) [mkfield T_ImageWidth 3 [5]]).
  exists (fst lay ++ [1; 2; 3]). split; [apply bytes_check; vm_compute; reflexivity|].
  eapply (C66_nowhere M powf parse_f32 _ l H1 false (map tree_of (snd lay)) "Canon" _ _ "EOS" "" _ Unknown cam).
  - nested (snd lay).
  - apply canon_picture. reflexivity.
  - repeat (apply Forall_cons; [absent|]). apply Forall_nil.
Qed.

(** A Kodak or Coolpix file without a wide picture makes the decoder crash; all that is
    reported is that it did. *)
Theorem C66_small_pictures_refuted : forall (M : Mode) powf parse_f32 db l, loader_new db = Ok l ->
  forall big ts make tag model file o cam, nested_photo l "" big ts make model file o cam ->
  make = "KODAK"%string /\ tag = T_StripOffsets \/ make = "NIKON"%string /\ tag = T_CFAPattern -> all_small ts tag ->
  decode powf parse_f32 l file = Panic /\ lib_decode powf parse_f32 db file = Err "Caught a panic while decoding.".
Proof. exact @small_pictures. Qed.
Print Assumptions C66_small_pictures_refuted.
Definition small_layout := lay_out false AsPlain [text_field T_Make "NIKON"; text_field T_Model "P7000"; mkfield T_ImageWidth 3 [160]; mkfield T_CFAPattern 1 [1; 1; 1; 1]]
  (fun at_ => [mkfield T_ImageWidth 3 [1000]; mkfield T_ImageLength 4 [2]; mkfield T_StripOffsets 4 [at_]; mkfield T_CFAPattern 1 [0; 1; 1; 2]]) [mkfield T_ImageWidth 3 [2000]].
Definition small_head : list Z := Eval vm_compute in fst small_layout.
Definition small_trees : list tree := Eval vm_compute in map tree_of (snd small_layout).
Example C66_small_pictures_ex : forall (M : Mode) powf parse_f32, lib_decode powf parse_f32 (one_camera "NIKON" "P7000" "") (small_head ++ [1; 2; 3]) = Err "Caught a panic while decoding.".
Proof.
  intros M powf parse_f32. destruct (camera_check M (one_camera "NIKON" "P7000" "") "NIKON" "P7000" "") as (l & cam & H1 & H2 & H3 & _); [destruct M; lazy; reflexivity|].
  apply (C66_small_pictures_refuted M powf parse_f32 _ l H1 false small_trees "NIKON" T_CFAPattern "P7000" _ Unknown cam).
  - nested (snd small_layout).
  - right. split; reflexivity.
  - unfold all_small. set (f := filter _ _). vm_compute in f. subst f. repeat (apply Forall_cons); [exists 160; split; [number|lia]|exists 1000; split; [number|lia]|apply Forall_nil].
Qed.

(** So does a DNG that has nothing but previews. *)
Theorem C66_previews_refuted : forall (M : Mode) powf parse_f32 db l, loader_new db = Ok l ->
  forall big ts file, tree_file big ts file -> In T_DNGVersion (map f_tag (visible ts)) -> Forall marked (flat_map all_trees ts) -> find shows_picture (flat_map all_trees ts) = None ->
  decode powf parse_f32 l file = Panic /\ lib_decode powf parse_f32 db file = Err "Caught a panic while decoding.".
Proof. exact @only_previews. Qed.
Print Assumptions C66_previews_refuted.
Definition preview_layout := lay_out true AsPlain [text_field T_Make "M"; text_field T_Model "A"; mkfield T_DNGVersion 1 [1; 4; 0; 0]; mkfield T_NewSubFileType 4 [1]; mkfield T_Compression 3 [7]]
  (fun at_ => [mkfield T_ImageWidth 3 [12]; mkfield T_ImageLength 4 [2]; mkfield T_StripOffsets 4 [at_]; mkfield T_Compression 3 [8]]) [mkfield T_ImageWidth 3 [2000]].
Definition preview_head : list Z := Eval vm_compute in fst preview_layout.
Definition preview_trees : list tree := Eval vm_compute in map tree_of (snd preview_layout).
Example C66_previews_ex : forall (M : Mode) powf parse_f32, lib_decode powf parse_f32 (one_camera "M" "A" "") (preview_head ++ [1; 2; 3]) = Err "Caught a panic while decoding.".
Proof.
  intros M powf parse_f32. destruct (camera_check M (one_camera "M" "A" "") "M" "A" "") as (l & cam & H1 & _ & _ & _); [destruct M; lazy; reflexivity|].
  apply (C66_previews_refuted M powf parse_f32 _ l H1 true preview_trees).
  - apply (is_head_ok true preview_head (snd preview_layout)); [vm_compute; reflexivity|vm_compute; reflexivity|apply bytes_check; vm_compute; reflexivity].
  - vm_compute. tauto.
  - set (f := flat_map _ _). vm_compute in f. subst f. repeat (apply Forall_cons || apply Forall_nil).
    all: intros H; try (vm_compute in H; discriminate H).
    + split; [exists 7; number|right; exists 1; number].
    + split; [exists 8; number|left; absent].
  - vm_compute. reflexivity.
Qed.

(** So does a file of Kodak's EasyShare cameras with fewer than 13 places. *)
Theorem C66_few_places_refuted : forall (M : Mode) powf parse_f32 db l, loader_new db = Ok l ->
  forall big ts model file w h o cam vs, nested_photo l "" big ts "EASTMAN KODAK COMPANY" model file o cam ->
  has_number (visible ts) T_KdcWidth w -> has_number (visible ts) T_KdcLength h -> has_numbers (visible ts) T_KdcOffset vs -> Z.of_nat (length vs) < 13 ->
  decode powf parse_f32 l file = Panic /\ lib_decode powf parse_f32 db file = Err "Caught a panic while decoding.".
Proof. exact @few_places. Qed.
Print Assumptions C66_few_places_refuted.
Definition few_layout := lay_out true AsPlain [text_field T_Make "EASTMAN KODAK COMPANY"; text_field T_Model "Z980"; mkfield T_ImageWidth 3 [5]]
  (fun at_ => [mkfield T_KdcWidth 4 [2]; mkfield T_KdcLength 4 [1]; mkfield T_KdcOffset 4 [1; 2; 3; 4; 5; 6; 7; 8; 9; 10; 11; 12]]) [mkfield T_KdcWB 3 [400; 256; 300]].
Definition few_head : list Z := Eval vm_compute in fst few_layout.
Definition few_trees : list tree := Eval vm_compute in map tree_of (snd few_layout).
Example C66_few_places_ex : forall (M : Mode) powf parse_f32, lib_decode powf parse_f32 (one_camera "EASTMAN KODAK COMPANY" "Z980" "") (few_head ++ [1; 2; 3]) = Err "Caught a panic while decoding.".
Proof.
  intros M powf parse_f32. destruct (camera_check M (one_camera "EASTMAN KODAK COMPANY" "Z980" "") "EASTMAN KODAK COMPANY" "Z980" "") as (l & cam & H1 & H2 & H3 & _); [destruct M; lazy; reflexivity|].
  apply (C66_few_places_refuted M powf parse_f32 _ l H1 true few_trees "Z980" _ 2 1 Unknown cam [1; 2; 3; 4; 5; 6; 7; 8; 9; 10; 11; 12]).
  - nested (snd few_layout).
  - number.
  - number.
  - right. split; [member|repeat (apply Forall_cons; [lia|]); constructor].
  - vm_compute. reflexivity.
Qed.
