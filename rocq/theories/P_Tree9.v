(** The theorems of C60 for each kind of compression, and checks for the examples. *)
From Coq Require Import String Ascii ZArith List Bool Reals Lia ZifyBool.
From Verif Require Import Base Num F32 Cfa Tiff Transform Image Camera Clients Dispatch.
From Verif Require Import Spec_Bits Spec_Image Spec_Stream Spec_Packed Spec_Cfa Spec_Tiff Spec_Camera Spec_Known Spec_Huffman Spec_Ljpeg Spec_Curve Spec_Meta Spec_File Spec_Dng Spec_Tree Spec_TreeDng.
From Verif Require Import P_Srw3b P_File5 P_Dng4 P_Tree6 P_Tree8.
Import ListNotations.
Local Open Scope Z_scope.

Lemma dng_plain_found : forall (M : Mode) powf parse_f32 db l, loader_new db = Ok l ->
  forall big ts raw make model file w h cpp o m, dng_tree big ts raw make model file w h cpp 1 o m ->
  forall bps offset samples rest, bps = 16 \/ bps = 12 -> has_number (visible [raw]) T_BitsPerSample bps -> has_number (visible [raw]) T_StripOffsets offset ->
  0 < w * cpp -> (bps = 12 -> Z.even (w * cpp) = true) ->
  from_offset file offset ((if bps =? 16 then pack16 false samples else pack 12 samples) ++ rest) ->
  Z.of_nat (length samples) = w * cpp * h -> Forall (Spec_Packed.fits (Z.to_nat bps)) samples ->
  exists img, lib_decode powf parse_f32 db file = Ok img /\ dng_shows l make model img w h cpp o m /\ i_data img = samples.
Proof. intros M powf parse_f32 db l Hl big ts raw make model file w h cpp o m D bps offset samples rest. exact (@dng_plain_nested M powf parse_f32 db l Hl big ts raw make model file w h cpp 1 o m D bps offset samples rest eq_refl). Qed.

Lemma dng_table_found : forall (M : Mode) powf parse_f32 db l, loader_new db = Ok l ->
  forall big ts raw make model file w h cpp o m, dng_tree big ts raw make model file w h cpp 1 o m ->
  forall offset stored curve, has_number (visible [raw]) T_BitsPerSample 8 -> has_number (visible [raw]) T_StripOffsets offset ->
  has_numbers (visible ts) T_Linearization curve -> length curve = 256%nat -> samples curve -> increasing curve -> not_too_steep curve ->
  0 < w * cpp -> from_offset file offset stored -> w * cpp * h <= Z.of_nat (length stored) ->
  exists img, lib_decode powf parse_f32 db file = Ok img /\ dng_shows l make model img w h cpp o m /\ Z.of_nat (length (i_data img)) = w * cpp * h /\
    forall k, 0 <= k < w * cpp * h -> near curve (nth (Z.to_nat k) stored 0) (nth (Z.to_nat k) (i_data img) 0).
Proof. intros M powf parse_f32 db l Hl big ts raw make model file w h cpp o m D offset stored curve. exact (@dng_table_nested M powf parse_f32 db l Hl big ts raw make model file w h cpp 1 o m D offset stored curve eq_refl). Qed.

Lemma dng_jpeg_found : forall (M : Mode) powf parse_f32 db l, loader_new db = Ok l ->
  forall big ts raw make model file w h cpp o m, dng_tree big ts raw make model file w h cpp 7 o m ->
  forall offset n jw jh pic stored, has_number (visible [raw]) T_StripOffsets offset -> from_offset file offset stored ->
  holds_jpeg debug n jw jh pic stored -> 0 < h <= jh -> 0 < w * cpp <= n * jw -> (w * cpp) mod n = 0 ->
  exists img, lib_decode powf parse_f32 db file = Ok img /\ dng_shows l make model img w h cpp o m /\ is_image (i_data img) (w * cpp) h (flat n pic).
Proof. intros M powf parse_f32 db l Hl big ts raw make model file w h cpp o m D offset n jw jh pic stored. exact (@dng_jpeg_nested M powf parse_f32 db l Hl big ts raw make model file w h cpp 7 o m D offset n jw jh pic stored eq_refl). Qed.

Lemma dng_tiles_found : forall (M : Mode) powf parse_f32 db l, loader_new db = Ok l ->
  forall big ts raw make model file w h cpp o m, dng_tree big ts raw make model file w h cpp 7 o m ->
  forall n tw tl offs pic, has_no (visible [raw]) T_StripOffsets -> has_numbers (visible [raw]) T_TileOffsets offs ->
  has_number (visible [raw]) T_TileWidth tw -> has_number (visible [raw]) T_TileLength tl ->
  0 < tw -> 0 < tl -> 0 < h -> 0 < w * cpp -> w * cpp * h < 2 ^ 64 -> (w * cpp) mod n = 0 -> (tw * cpp) mod n = 0 -> (n = 4 -> w <= tw) ->
  Z.of_nat (length offs) = tiles w tw * tiles h tl ->
  (forall tr tc, 0 <= tr < tiles h tl -> 0 <= tc < tiles w tw -> exists stored jw jh tile,
     from_offset file (nth (Z.to_nat (tr * tiles w tw + tc)) offs 0) stored /\ holds_jpeg debug n jw jh tile stored /\
     tile_shows n (tw * cpp) tl (w * cpp) h pic tr tc jw jh tile) ->
  exists img, lib_decode powf parse_f32 db file = Ok img /\ dng_shows l make model img w h cpp o m /\ is_image (i_data img) (w * cpp) h pic.
Proof. intros M powf parse_f32 db l Hl big ts raw make model file w h cpp o m D n tw tl offs pic. exact (@dng_tiles_nested M powf parse_f32 db l Hl big ts raw make model file w h cpp 7 o m D n tw tl offs pic eq_refl). Qed.

Lemma dng_swapped_found : forall (M : Mode) powf parse_f32 db l, loader_new db = Ok l ->
  forall ts raw make model file w h cpp o m, dng_tree true ts raw make model file w h cpp 1 o m ->
  forall offset samples rest, has_number (visible [raw]) T_BitsPerSample 16 -> has_number (visible [raw]) T_StripOffsets offset ->
  0 < w * cpp -> from_offset file offset (pack16 true samples ++ rest) -> Z.of_nat (length samples) = w * cpp * h -> Forall (Spec_Packed.fits 16) samples ->
  exists img, lib_decode powf parse_f32 db file = Ok img /\ i_data img = map swap16 samples.
Proof. intros M powf parse_f32 db l Hl ts raw make model file w h cpp o m D offset samples rest. exact (@dng_swapped_nested M powf parse_f32 db l Hl true ts raw make model file w h cpp 1 o m D offset samples rest eq_refl). Qed.

(** ** Examples *)
Definition is_number (fs : list field) (tag : Z) : bool :=
  existsb (fun f => (f_tag f =? tag) && ((f_typ f =? 3) || (f_typ f =? 4)) && match f_vals f with [v] => (0 <=? v) && (v <? (if f_typ f =? 3 then 65536 else 4294967296)) | _ => false end) fs.
Lemma is_number_ok : forall fs tag, is_number fs tag = true -> exists v, has_number fs tag v.
Proof.
  intros fs tag H. apply existsb_exists in H. destruct H as ([t y vs] & Hf & H). cbn [f_tag f_typ f_vals] in H. apply andb_prop in H. destruct H as [H H3]. apply andb_prop in H. destruct H as [H1 H2].
  destruct vs as [|v [|? ?]]; try discriminate H3. exists v. replace t with tag in Hf by lia. destruct (y =? 3) eqn:E.
  - left. replace y with 3 in Hf by lia. split; [exact Hf|lia].
  - right. replace y with 4 in Hf by lia. split; [exact Hf|lia].
Qed.
Definition is_marked (t : tree) : bool :=
  negb (has_value T_Compression t) || is_number (visible [t]) T_Compression && (negb (existsb (Z.eqb T_NewSubFileType) (map f_tag (visible [t]))) || is_number (visible [t]) T_NewSubFileType).
Lemma marked_ok : forall l, forallb is_marked l = true -> Forall marked l.
Proof.
  intros l H. apply Forall_forall. intros t Ht. pose proof (proj1 (forallb_forall _ _) H t Ht) as Q. intros Hv. unfold is_marked in Q. rewrite Hv in Q. cbn [negb orb] in Q. apply andb_prop in Q. destruct Q as [Q1 Q2].
  split; [apply is_number_ok; exact Q1|]. apply orb_prop in Q2. destruct Q2 as [Q2|Q2]; [left; apply absent_ok; destruct (existsb _ _); [discriminate Q2|reflexivity]|right; apply is_number_ok; exact Q2].
Qed.
(** A preview in the first directory, the picture in the second *)
Definition dng_layout (big : bool) (w h compression bps : Z) (where_ : Z -> list field) (top : list field) :=
  lay_out big AsPlain
   ([mkfield T_DNGVersion 1 [1; 4; 0; 0]; text_field T_Make "Ricoh"; text_field T_Model "GR"; mkfield T_Orientation 3 [8]; mkfield T_NewSubFileType 4 [1]; mkfield T_Compression 3 [1]; mkfield T_ImageWidth 3 [160];
     mkfield T_AsShotNeutral 5 (map (fraction big) [(1, 2); (1, 1); (2, 3)]);
     mkfield T_ColorMatrix2 10 (map (fraction big) [(8000, 10000); (-1000, 10000); (0, 1); (-2000, 10000); (9000, 10000); (1, 10); (1, 7); (-1, 3); (6000, 10000)])] ++ top)
   (fun at_ => [mkfield T_NewSubFileType 4 [0]; mkfield T_ImageWidth 3 [w]; mkfield T_ImageLength 4 [h]; mkfield T_SamplesPerPixel 3 [1]; mkfield T_Compression 3 [compression];
     mkfield T_BitsPerSample 3 [bps]; mkfield T_WhiteLevel 4 [4095]; mkfield T_BlackLevels 3 [64; 65; 66; 67]; mkfield T_ActiveArea 3 [0; 1; 2; 3]; mkfield T_PhotometricInt 3 [32803]; mkfield T_CFAPattern 1 [0; 1; 1; 2]] ++ where_ at_)
   [mkfield T_ImageWidth 3 [9]].
Lemma dng_check : forall big ts raw head ps data w h compression, map tree_of ps = ts -> is_head big head ps = true -> Z.of_nat (length data) < 65536 -> bytes data ->
  In (text_field T_Make "Ricoh") (visible ts) -> In (text_field T_Model "GR") (visible ts) -> In T_DNGVersion (map f_tag (visible ts)) -> forallb is_marked (flat_map all_trees ts) = true ->
  find shows_picture (flat_map all_trees ts) = Some raw -> has_number (visible ts) T_Orientation 8 -> has_fractions big (visible ts) T_AsShotNeutral [(1, 2); (1, 1); (2, 3)] ->
  has_signed_fractions big (visible ts) T_ColorMatrix2 [(8000, 10000); (-1000, 10000); (0, 1); (-2000, 10000); (9000, 10000); (1, 10); (1, 7); (-1, 3); (6000, 10000)] ->
  has_number (visible [raw]) T_ImageWidth w -> has_number (visible [raw]) T_ImageLength h -> 3 <= w -> 2 <= h -> has_number (visible [raw]) T_SamplesPerPixel 1 -> has_number (visible [raw]) T_Compression compression ->
  has_number (visible [raw]) T_WhiteLevel 4095 -> has_numbers (visible [raw]) T_BlackLevels [64; 65; 66; 67] -> has_numbers (visible [raw]) T_ActiveArea [0; 1; 2; 3] ->
  has_number (visible [raw]) T_PhotometricInt 32803 -> In (mkfield T_CFAPattern 1 [0; 1; 1; 2]) (visible [raw]) ->
  dng_tree big ts raw "Ricoh" "GR" (head ++ data) w h 1 compression Rotate270 example_meta.
Proof.
  intros big ts raw head ps data w h compression <- H1 H2 H3 H4 H5 H6 H7 H8 H9 H10 H11 H12 H13 H14 H15 H16 H17 H18 H19 H20 H21 H22. split; try assumption.
  - apply is_head_ok; assumption.
  - split; try assumption; apply prints_ok; vm_compute; reflexivity.
  - apply marked_ok. exact H7.
  - left. exists 8. auto.
  - cbn [m_neutral example_meta]. split; [exact H10|]. cbn [list3]. repeat (apply Forall_cons; [unfold moderate; cbn [fst snd]; lia|]); constructor.
  - cbn [m_matrix example_meta list3 app]. left. exact H11.
  - split; [exact H18|reflexivity].
  - cbn [m_black example_meta]. split; [exact H19|]. split; [right; reflexivity|repeat (apply Forall_cons; [unfold sample; lia|]); constructor].
  - cbn [m_area example_meta]. split; [exact H20|lia].
  - cbn [m_pattern example_meta]. split; [exact H21|]. split; [exact H22|]. split; [discriminate|repeat (apply Forall_cons; [lia|]); constructor].
Qed.
Ltac dng_nested ps := eapply (dng_check _ _ _ _ ps);
  [vm_compute; reflexivity|vm_compute; reflexivity|vm_compute; reflexivity|apply bytes_check; vm_compute; reflexivity|member|member|member|vm_compute; reflexivity|vm_compute; reflexivity|number|fractions|fractions|
   number|number|lia|lia|number|number|number|numbers|numbers|number|member].
Ltac place := right; split; [member|split; [vm_compute; discriminate|vm_compute; reflexivity]].
