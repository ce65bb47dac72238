(** C61: whole files of Canon cameras whose directories lie one inside another, as the
    cameras write them: the picture is in a later directory, the white balance in the
    maker's note.  As in C57, the samples are in a lossless JPEG, which may be cut into
    stripes; small pictures hold brightness and colour differences.  Some cameras write
    two rows as one, and the samples of one stand for the values of a table. *)
From Coq Require Import String Ascii ZArith List Bool Reals Lia.
From Verif Require Import Base Num F32 Tiff Transform Image Camera Clients Dispatch.
From Verif Require Import Spec_Bits Spec_Image Spec_Stream Spec_Huffman Spec_Ljpeg Spec_Sensor Spec_Curve Spec_Tiff Spec_Camera Spec_Known Spec_Meta Spec_File Spec_Dng Spec_Canon Spec_Tree Spec_TreeCanon.
From Verif Require Import P_Srw3b P_Crw4 P_Ljpeg7 P_File5 P_Dng4 P_Canon3 P_Tree3 P_Tree6 P_Tree9 P_Tree10 P_Tree11 P_Tree12.
Import ListNotations.
Local Open Scope Z_scope.

(** Pictures of the sensor.  [n] is the number of components of the JPEG, at least two. *)
Theorem C61_sensor : forall (M : Mode) powf parse_f32 db l, loader_new db = Ok l ->
  forall big ts fs off model data file o cam n jw jh jpeg w h place b,
  nested_photo l "" big ts "Canon" model file o cam -> canon_raw ts fs off -> from file off data -> find_hint cam "linearization" = false ->
  holds_jpeg debug n jw jh jpeg data -> canon_size (find_hint cam "double_line") (n * jw) jh w h -> canon_place fs w h place -> canon_balance (visible ts) cam b ->
  exists img, lib_decode powf parse_f32 db file = Ok img /\ shows img cam o w h /\ is_image (i_data img) w h (fun r c => numbered_sample n (n * jw) jpeg (place r c)) /\
    i_blacks img = c_blacks cam /\ has_balance img b.
Proof. exact @canon_nested. Qed.
Print Assumptions C61_sensor.
(** Two stripes, of three columns and of one.  The first directory has another place
    and size, of a preview. *)
Definition canon_layout := lay_out true AsPlain [text_field T_Make "Canon"; text_field T_Model "EOS"; mkfield T_StripOffsets 4 [9]; mkfield T_ImageWidth 3 [5]; mkfield T_Orientation 3 [6]]
  (fun at_ => [mkfield T_StripOffsets 4 [at_]; mkfield T_Cr2Id 4 [0]; mkfield T_Cr2StripeWidths 3 [1; 3; 1]]) [mkfield T_Cr2PowerShotWB 4 [0; 0; 1024; 2000; 1500]].
Definition canon_head : list Z := Eval vm_compute in fst canon_layout.
Definition canon_trees : list tree := Eval vm_compute in map tree_of (snd canon_layout).
Example C61_sensor_ex : forall (M : Mode) powf parse_f32, exists img cam,
  lib_decode powf parse_f32 (hinted []) (canon_head ++ jpeg_sample) = Ok img /\
  shows img cam Rotate90 4 2 /\ i_data img = [8192; 8189; 8194; 8195; 8191; 8193; 8190; 8192] /\ balance img 2000 1024 1500.
Proof.
  intros M powf parse_f32. destruct (hinted_check M (hinted []) false false) as (l & cam & H1 & H2 & H3 & H4 & H5 & H6 & _); [destruct M; lazy; reflexivity|].
  edestruct (C61_sensor M powf parse_f32 _ l H1 true canon_trees) with (off := Z.of_nat (length canon_head)) (model := "EOS"%string) (data := jpeg_sample) (file := canon_head ++ jpeg_sample) (o := Rotate90) (cam := cam)
    (n := 2) (jw := 2) (jh := 2) (jpeg := jpeg_picture) (w := 4) (h := 2) (place := stripe_place 1 3 1 2) (b := Some (2000, 1024, 1500)) as (img & E1 & E2 & E3 & _ & E5).
  - nested_with 6 (snd canon_layout).
  - eapply raw_by_id; [vm_compute; reflexivity|place].
  - apply from_app. reflexivity.
  - exact H5.
  - apply jpeg_held; constructor.
  - rewrite H6. split; reflexivity.
  - apply (by_stripes _ _ _ 1 3 1 []); [numbers|lia|lia|reflexivity].
  - apply (by_powershot _ _ 0 0 1024 2000 1500 []); [absent|member|repeat (apply Forall_cons; [lia|]); constructor].
  - exists img, cam. split; [exact E1|]. split; [exact E2|]. split; [|exact E5].
    apply (image_list _ _ _ _ _ E3); [lia|reflexivity|vm_compute; reflexivity].
Qed.
(** Two rows written as one, and no directory for the picture *)
Definition double_layout := lay_out false AsPlain [text_field T_Make "Canon"; text_field T_Model "EOS"]
  (fun at_ => [mkfield T_Cr2OldOffset 4 [at_]]) [mkfield T_Cr2OldWB 3 [2000; 1024; 1500; 1024]].
Definition double_head : list Z := Eval vm_compute in fst double_layout.
Definition double_trees : list tree := Eval vm_compute in map tree_of (snd double_layout).
Example C61_double_ex : forall (M : Mode) powf parse_f32, exists img cam,
  lib_decode powf parse_f32 (hinted ["double_line"%string]) (double_head ++ jpeg_sample) = Ok img /\
  shows img cam Unknown 2 4 /\ i_data img = [8192; 8189; 8194; 8191; 8193; 8190; 8195; 8192] /\ balance img 2000 1024 1500.
Proof.
  intros M powf parse_f32. destruct (hinted_check M (hinted ["double_line"%string]) false true) as (l & cam & H1 & H2 & H3 & H4 & H5 & H6 & _); [destruct M; lazy; reflexivity|].
  edestruct (C61_sensor M powf parse_f32 _ l H1 false double_trees) with (off := Z.of_nat (length double_head)) (model := "EOS"%string) (data := jpeg_sample) (file := double_head ++ jpeg_sample) (o := Unknown) (cam := cam)
    (n := 2) (jw := 2) (jh := 2) (jpeg := jpeg_picture) (w := 2) (h := 4) (place := fun r c => r * 2 + c) (b := Some (2000, 1024, 1500)) as (img & E1 & E2 & E3 & _ & E5).
  - nested (snd double_layout).
  - apply (raw_by_offset _ _ []); [absent|absent|]. apply one_number. place.
  - apply from_app. reflexivity.
  - exact H5.
  - apply jpeg_held; constructor.
  - rewrite H6. split; reflexivity.
  - apply by_rows. left. absent.
  - apply (by_old _ _ 2000 1024 1500 [1024]); [absent|absent|numbers].
  - exists img, cam. split; [exact E1|]. split; [exact E2|]. split; [|exact E5].
    apply (image_list _ _ _ _ _ E3); [lia|reflexivity|vm_compute; reflexivity].
Qed.

(** Through a table of 4096 values, for JPEGs of no more than 12 bits.  Missing, as in
    C54: the noise that the program adds, and tables that are not increasing or too
    steep. *)
Theorem C61_linear_partial : forall (M : Mode) powf parse_f32 db l, loader_new db = Ok l ->
  forall big ts fs off model data file o cam n jw jh jpeg w h place b curve,
  nested_photo l "" big ts "Canon" model file o cam -> canon_raw ts fs off -> from file off data -> find_hint cam "linearization" = true ->
  has_numbers (visible ts) T_GrayResponse curve -> length curve = 4096%nat -> samples curve -> increasing curve -> not_too_steep curve ->
  holds_jpeg debug n jw jh jpeg data -> (forall r j i, 0 <= r < jh -> 0 <= j < jw -> 0 <= i < n -> jpeg r j i < 4096) ->
  canon_size (find_hint cam "double_line") (n * jw) jh w h -> canon_place fs w h place -> canon_balance (visible ts) cam b ->
  exists img, lib_decode powf parse_f32 db file = Ok img /\ shows img cam o w h /\ Z.of_nat (length (i_data img)) = w * h /\
    (forall r c, 0 <= r < h -> 0 <= c < w -> near curve (numbered_sample n (n * jw) jpeg (place r c)) (nth (Z.to_nat (r * w + c)) (i_data img) 0)) /\
    i_blacks img = c_blacks cam /\ has_balance img b.
Proof. exact @canon_linear_nested. Qed.
Print Assumptions C61_linear_partial.
Definition linear_layout := lay_out false AsPlain [text_field T_Make "Canon"; text_field T_Model "EOS"; mkfield T_GrayResponse 3 ramp]
  (fun at_ => [mkfield T_CFAPattern 1 [0; 1; 1; 2]; mkfield T_StripOffsets 4 [at_]]) [mkfield T_Cr2OldWB 3 [2000; 1024; 1500; 1024]].
Definition linear_head : list Z := Eval vm_compute in fst linear_layout.
Definition linear_plans : list plan := Eval vm_compute in snd linear_layout.
Definition linear_trees : list tree := Eval vm_compute in map tree_of linear_plans.
Example C61_linear_ex : forall (M : Mode) powf parse_f32, exists img cam,
  lib_decode powf parse_f32 (hinted ["linearization"%string]) (linear_head ++ dark_sample) = Ok img /\
  shows img cam Unknown 4 2 /\ near ramp 2050 (nth 2 (i_data img) 0) /\ balance img 2000 1024 1500.
Proof.
  intros M powf parse_f32. destruct (hinted_check M (hinted ["linearization"%string]) true false) as (l & cam & H1 & H2 & H3 & H4 & H5 & H6 & _); [destruct M; lazy; reflexivity|].
  edestruct (C61_linear_partial M powf parse_f32 _ l H1 false linear_trees) with (off := 8346) (model := "EOS"%string) (data := dark_sample) (file := linear_head ++ dark_sample) (o := Unknown) (cam := cam)
    (n := 2) (jw := 2) (jh := 2) (jpeg := dark_picture) (w := 4) (h := 2) (place := fun r c => r * 4 + c) (b := Some (2000, 1024, 1500)) (curve := ramp) as (img & E1 & E2 & E3 & E4 & _ & E5).
  - eapply (nested_check _ _ _ _ _ _ _ linear_plans); [reflexivity|vm_compute; reflexivity|vm_compute; reflexivity|apply bytes_check; vm_compute; reflexivity|member|vm_compute; reflexivity|member|vm_compute; reflexivity|absent|discriminate|absent|assumption|assumption].
  - eapply raw_by_pattern; [absent|vm_compute; reflexivity|number].
  - apply from_app. vm_compute. reflexivity.
  - exact H5.
  - left. split; [member|exact ramp_samples].
  - exact ramp_length.
  - exact ramp_samples.
  - exact ramp_increasing.
  - exact ramp_gentle.
  - apply dark_held.
  - intros r j i Hr Hj Hi. unfold dark_picture. lia.
  - rewrite H6. split; reflexivity.
  - apply by_rows. left. absent.
  - apply (by_old _ _ 2000 1024 1500 [1024]); [absent|absent|numbers].
  - exists img, cam. split; [exact E1|]. split; [exact E2|]. split; [|exact E5]. exact (E4 0 2 ltac:(lia) ltac:(lia)).
Qed.

(** Small pictures of [w] x [h] blocks of 2 x [v] pixels, with the white balance in the
    colour data.  Missing: the white balance in the two other fields (see C52). *)
Theorem C61_small_partial : forall (M : Mode) powf parse_f32 db l, loader_new db = Ok l ->
  forall big ts fs off model data file o cam v w h jpeg pic vs p wr wg wg' wb,
  nested_photo l "" big ts "Canon" model file o cam -> canon_raw ts fs off -> from file off data -> find_hint cam "linearization" = false ->
  has_number fs T_ImageWidth (2 * w) /\ has_number fs T_ImageLength (v * h) \/ has_no fs T_ImageWidth /\ v * h <= 2 * w ->
  In (mkfield T_Cr2ColorData 3 vs) (visible ts) -> samples vs -> p = (if c_wb_offset cam =? 0 then 63 else c_wb_offset cam) -> 0 <= p ->
  firstn 4 (skipn (Z.to_nat p) vs) = [wr; wg; wg'; wb] -> 56 <= wr -> wg <= 27948 -> 56 <= wb ->
  holds_small_jpeg debug v w h jpeg data ->
  arranged fs v w h (small_rgb wr wg wb (if find_hint cam "40d_yuv" then 512 else 0) v jpeg) pic ->
  exists img, lib_decode powf parse_f32 db file = Ok img /\ shows_colours img cam o (2 * w) (v * h) /\ is_image (i_data img) (6 * w) (v * h) pic /\
    balance img wr wg wb.
Proof. exact @canon_small_nested. Qed.
Print Assumptions C61_small_partial.
Definition few_data : list Z := repeat 0 63 ++ [2000; 1024; 1024; 1500].
Definition few_layout := lay_out true AsPlain [text_field T_Make "Canon"; text_field T_Model "EOS"; mkfield T_ImageWidth 3 [9]]
  (fun at_ => [mkfield T_Cr2Id 4 [0]; mkfield T_StripOffsets 4 [at_]; mkfield T_ImageWidth 3 [2]; mkfield T_ImageLength 3 [2]]) [mkfield T_Cr2ColorData 3 few_data].
Definition few_head : list Z := Eval vm_compute in fst few_layout.
Definition few_trees : list tree := Eval vm_compute in map tree_of (snd few_layout).
Example C61_small_ex : forall (M : Mode) powf parse_f32, exists img cam,
  lib_decode powf parse_f32 (hinted []) (few_head ++ small_data []) = Ok img /\
  shows_colours img cam Unknown 2 2 /\ i_data img = [33517; 65535; 44716; 33513; 65535; 44711; 33509; 65535; 44705; 33505; 65532; 44700] /\ balance img 2000 1024 1500.
Proof.
  intros M powf parse_f32. destruct (hinted_check M (hinted []) false false) as (l & cam & H1 & H2 & H3 & H4 & H5 & _ & H7); [destruct M; lazy; reflexivity|].
  edestruct (C61_small_partial M powf parse_f32 _ l H1 true few_trees) with (off := Z.of_nat (length few_head)) (model := "EOS"%string) (data := small_data []) (file := few_head ++ small_data []) (o := Unknown) (cam := cam)
    (v := 2) (w := 1) (h := 1) (jpeg := small_pic) (pic := small_rgb 2000 1024 1500 0 2 small_pic) (vs := few_data) (p := 63) (wr := 2000) (wg := 1024) (wg' := 1024) (wb := 1500) as (img & E1 & E2 & E3 & E5).
  - nested (snd few_layout).
  - eapply raw_by_id; [vm_compute; reflexivity|place].
  - apply from_app. reflexivity.
  - exact H5.
  - left. split; number.
  - member.
  - small_samples.
  - rewrite H4. reflexivity.
  - lia.
  - reflexivity.
  - lia.
  - lia.
  - lia.
  - apply small_held. constructor.
  - rewrite H7. apply whole. absent.
  - exists img, cam. split; [exact E1|]. split; [exact E2|]. split; [|exact E5].
    apply (image_list _ _ _ _ _ E3); [lia|reflexivity|vm_compute; reflexivity].
Qed.
