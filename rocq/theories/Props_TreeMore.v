(** C62: whole files of further makers whose directories lie one inside another:
    Epson, Hasselblad, two kinds of Kodak, and Nikon's small cameras.  The last two
    kinds of camera write several pictures; the one that counts is the first that is
    more than 1000 wide. *)
From Coq Require Import String Ascii ZArith List Bool Reals Lia.
From Flocq Require Import BinarySingleNaN.
From Verif Require Import Base Num F32 Tiff Transform Image Camera Clients Dispatch.
From Verif Require Import Spec_Bits Spec_Image Spec_Stream Spec_Packed Spec_Huffman Spec_Ljpeg Spec_Pred Spec_Curve Spec_Dcr Spec_Nikon Spec_Tiff Spec_Camera Spec_Known Spec_Meta Spec_File Spec_Dng Spec_Tree Spec_TreeMore.
From Verif Require Import P_Srw3b P_Crw4 P_Ljpeg7 P_File5 P_Tree3 P_Tree6 P_Tree9 P_Tree13 P_Tree14 P_Tree15 Props_Pred4.
Import ListNotations.
Local Open Scope Z_scope.

(** Epson: samples of 12 bits, packed, with a byte after every ten samples. *)
Theorem C62_epson : forall (M : Mode) powf parse_f32 db l, loader_new db = Ok l ->
  forall big ts raw model rows c rest file w o cam vs,
  let h := Z.of_nat (length rows) in
  nested_photo l "" big ts "SEIKO EPSON CORP." model file o cam ->
  picture_at ts file T_CFAPattern T_ImageWidth T_ImageLength T_StripOffsets raw w h
    (pack_rows (w * 12 / 8 + (w + 2) / 10) c (fun row => with_control c (pack 12 row)) rows ++ rest) ->
  0 < w -> Z.even w = true -> byte c -> Forall (fun row => Z.of_nat (length row) = w) rows -> Forall (Forall (Spec_Packed.fits 12)) rows ->
  has_bytes (visible ts) T_EpsonWB vs -> Z.of_nat (length vs) = 256 ->
  exists img, lib_decode powf parse_f32 db file = Ok img /\ shows img cam o w h /\ i_data img = concat rows /\ i_blacks img = c_blacks cam /\ epson_balance img vs.
Proof. exact @erf_nested. Qed.
Print Assumptions C62_epson.
Definition epson_levels : list Z := Eval vm_compute in repeat 0 48 ++ [1; 44; 2; 88] ++ repeat 7 204.
Definition epson_layout := lay_out true AsPlain [text_field T_Make "SEIKO EPSON CORP."; text_field T_Model "R-D1"; mkfield T_ImageWidth 3 [5]]
  (fun at_ => [mkfield T_ImageWidth 3 [12]; mkfield T_ImageLength 4 [2]; mkfield T_StripOffsets 4 [at_]; mkfield T_CFAPattern 1 [0; 1; 1; 2]]) [mkfield T_EpsonWB 7 epson_levels].
Definition epson_head : list Z := Eval vm_compute in fst epson_layout.
Definition epson_trees : list tree := Eval vm_compute in map tree_of (snd epson_layout).
Definition epson_rows : list (list Z) := [[1; 2; 3; 4; 5; 6; 7; 8; 9; 10; 11; 4095]; [13; 14; 15; 16; 17; 18; 19; 20; 21; 22; 23; 1024]].
Definition epson_data : list Z := Eval vm_compute in pack_rows 19 9 (fun row => with_control 9 (pack 12 row)) epson_rows.
Example C62_epson_ex : forall (M : Mode) powf parse_f32, exists img cam,
  lib_decode powf parse_f32 (one_camera "SEIKO EPSON CORP." "R-D1" "") (epson_head ++ epson_data ++ [7]) = Ok img /\
  shows img cam Unknown 12 2 /\ i_data img = concat epson_rows /\ i_blacks img = c_blacks cam /\ epson_balance img epson_levels.
Proof.
  intros M powf parse_f32. destruct (camera_check M (one_camera "SEIKO EPSON CORP." "R-D1" "") "SEIKO EPSON CORP." "R-D1" "") as (l & cam & H1 & H2 & H3 & _); [destruct M; lazy; reflexivity|].
  edestruct (C62_epson M powf parse_f32 _ l H1 true epson_trees) with (file := epson_head ++ epson_data ++ [7]) (model := "R-D1"%string) (rows := epson_rows) (c := 9) (rest := [7]) (w := 12) (o := Unknown) (cam := cam) (vs := epson_levels)
    as (img & E).
  - nested (snd epson_layout).
  - change (pack_rows (12 * 12 / 8 + (12 + 2) / 10) 9 (fun row => with_control 9 (pack 12 row)) epson_rows) with epson_data. change (Z.of_nat (length epson_rows)) with 2. in_place.
  - lia.
  - reflexivity.
  - unfold byte. lia.
  - repeat constructor.
  - repeat (apply Forall_cons; [apply fits12_check; reflexivity|]). constructor.
  - split; [right; member|apply bytes_check; vm_compute; reflexivity].
  - reflexivity.
  - exists img, cam. exact E.
Qed.

(** Hasselblad: a lossless JPEG with a scan of its own kind, as in C20. *)
Theorem C62_hasselblad : forall (M : Mode) powf parse_f32 db l, loader_new db = Ok l ->
  forall big ts raw model file w w0 h o cam hs prec id a b comps tables pt scan more pic rest qa qb qc,
  let cs := (id, (a, b)) :: comps in
  let c := nth (Z.to_nat (nth 0 tables 0)) hs (mkcode [] []) in
  nested_photo l "" big ts "Hasselblad" model file o cam ->
  picture_at ts file T_WhiteLevel T_ImageWidth T_ImageLength T_StripOffsets raw (2 * w) h (jpeg_sampled hs prec w0 h cs tables 8 pt (scan ++ more)) ->
  (1 <= length hs <= 4)%nat -> Forall (good_code debug prec) hs -> Forall (fun c => ~ In 16 (hc_syms c)) hs ->
  12 <= prec <= 16 -> 0 < w0 < 65536 -> h < 65536 -> 0 <= pt < 16 -> a <> 2 ->
  (length cs <= 4)%nat -> Z.of_nat (length cs) * w0 = 2 * w -> w <= 32767 ->
  Forall (fun '(_, (a, b)) => 0 <= a <= 15 /\ 0 <= b <= 15) cs ->
  NoDup (map fst cs) -> length tables = length cs -> Forall (fun t => 0 <= t < Z.of_nat (length hs)) tables ->
  (Z.of_nat (length scan)) mod 4 = 0 -> bits_of (swapped 4 scan) = hass_coded c pic w h ++ rest ->
  picture_of_samples pic 2 w h ->
  (forall r j i, 0 <= r < h -> 0 <= j < w -> 0 <= i < 2 -> has_word prec c (hass_residual pic r j i)) ->
  has_fractions big (visible ts) T_AsShotNeutral [qa; qb; qc] -> Forall moderate [qa; qb; qc] ->
  exists img, lib_decode powf parse_f32 db file = Ok img /\ shows img cam o (2 * w) h /\ i_data img = hass_samples pic w h /\ i_blacks img = c_blacks cam /\
    inverse (e0 (i_wb img)) qa /\ inverse (e1 (i_wb img)) qb /\ inverse (e2 (i_wb img)) qc /\ e3 (i_wb img) = B754_nan.
Proof. exact @tfr_nested. Qed.
Print Assumptions C62_hasselblad.
Definition hass_layout := lay_out false AsPlain [text_field T_Make "Hasselblad"; text_field T_Model "H3D"; mkfield T_Orientation 3 [6]]
  (fun at_ => [mkfield T_ImageWidth 3 [4]; mkfield T_ImageLength 4 [1]; mkfield T_StripOffsets 4 [at_]; mkfield T_WhiteLevel 3 [65535]]) [mkfield T_AsShotNeutral 5 (map (fraction false) [(1, 2); (1, 1); (3, 4)])].
Definition hass_head : list Z := Eval vm_compute in fst hass_layout.
Definition hass_trees : list tree := Eval vm_compute in map tree_of (snd hass_layout).
Definition hass_data : list Z := Eval vm_compute in jpeg_sampled [dc_code] 14 4 1 [(1, (1, 1))] [0] 8 0 ([0; 128; 223; 26; 0; 0; 0; 0] ++ [255; 217]).
Example C62_hasselblad_ex : forall (M : Mode) powf parse_f32, exists img cam,
  lib_decode powf parse_f32 (one_camera "Hasselblad" "H3D" "") (hass_head ++ hass_data) = Ok img /\
  shows img cam Rotate90 4 1 /\ i_data img = [32768; 32766; 32771; 32769] /\ i_blacks img = c_blacks cam /\ inverse (e0 (i_wb img)) (1, 2) /\ inverse (e1 (i_wb img)) (1, 1) /\ inverse (e2 (i_wb img)) (3, 4).
Proof.
  intros M powf parse_f32. destruct (camera_check M (one_camera "Hasselblad" "H3D" "") "Hasselblad" "H3D" "") as (l & cam & H1 & H2 & H3 & _); [destruct M; lazy; reflexivity|].
  edestruct (C62_hasselblad M powf parse_f32 _ l H1 false hass_trees) with (file := hass_head ++ hass_data) (model := "H3D"%string) (w := 2) (w0 := 4) (h := 1) (o := Rotate90) (cam := cam) (hs := [dc_code]) (prec := 14) (id := 1) (a := 1) (b := 1)
    (comps := @nil (Z * (Z * Z))) (tables := [0]) (pt := 0) (scan := [0; 128; 223; 26; 0; 0; 0; 0]) (more := [255; 217]) (pic := fun r j i : Z => 32768 + 3 * j - 2 * i) (rest := repeat false 47) (qa := (1, 2)) (qb := (1, 1)) (qc := (3, 4))
    as (img & E1 & E2 & E3 & E4 & E5 & E6 & E7 & _).
  - nested_with 6 (snd hass_layout).
  - change (2 * 2) with 4. change (jpeg_sampled [dc_code] 14 4 1 [(1, (1, 1))] [0] 8 0 ([0; 128; 223; 26; 0; 0; 0; 0] ++ [255; 217])) with hass_data. in_place.
  - ncomp.
  - constructor; [apply dc_good|constructor].
  - constructor; [|constructor]. intros Q. cbn in Q. lia.
  - zcomp.
  - zcomp.
  - lia.
  - zcomp.
  - lia.
  - cbn [length]; lia.
  - reflexivity.
  - lia.
  - repeat constructor; lia.
  - repeat constructor; cbn [In]; lia.
  - reflexivity.
  - repeat constructor; cbn [length]; lia.
  - reflexivity.
  - vm_compute. reflexivity.
  - intros r j i Hr Hj Hi. unfold sample. lia.
  - intros r j i Hr Hj Hi. assert (r = 0) by lia. assert (j = 0 \/ j = 1) as [J|J] by lia; assert (i = 0 \/ i = 1) as [I|I] by lia; subst; dc_word.
  - fractions.
  - repeat (apply Forall_cons; [unfold moderate; cbn [fst snd]; lia|]). constructor.
  - exists img, cam. split; [exact E1|]. split; [exact E2|]. split; [rewrite E3; vm_compute; reflexivity|auto].
Qed.

(** Kodak, compressed: segments of differences, through the camera's table (C47). *)
Theorem C62_kodak_compressed : forall (M : Mode) powf parse_f32 db l, loader_new db = Ok l ->
  forall big ts raw model file w h o cam pic curve seg rest vs,
  nested_photo l "" big ts "Kodak" model file o cam ->
  picture_at ts file T_CFAPattern T_ImageWidth T_ImageLength T_StripOffsets raw w h (flat_map (fun r => flat_map (seg r) (upto (kodak_segments w))) (upto h) ++ rest) ->
  0 < w -> has_numbers (visible ts) T_DcrLinearization curve -> samples curve -> increasing curve -> not_too_steep curve ->
  (forall r c, 0 <= r < h -> 0 <= c < w -> 0 <= pic r c < Z.of_nat (length curve) /\ sample (pic r c)) ->
  (forall r k, 0 <= r < h -> 0 <= k < kodak_segments w -> Forall (fun d => Z.abs d < 2 ^ 15) (kodak_differences pic w r k) /\ kodak_segment (kodak_differences pic w r k) (seg r k)) ->
  has_bytes (visible ts) T_DcrWB vs ->
  exists img, lib_decode powf parse_f32 db file = Ok img /\ shows img cam o w h /\ is_image (i_data img) w h (toned_picture curve pic w 0) /\ i_blacks img = c_blacks cam /\
    kodak_balance img (visible ts) /\ e3 (i_wb img) = B754_nan.
Proof. exact @dcr_nested. Qed.
Print Assumptions C62_kodak_compressed.
Definition kodak_points : list Z := Eval vm_compute in kodak_curve.
Definition kodak_layout := lay_out true AsPlain [text_field T_Make "Kodak"; text_field T_Model "DCS Pro 14N"]
  (fun at_ => [mkfield T_ImageWidth 3 [12]; mkfield T_ImageLength 4 [2]; mkfield T_StripOffsets 4 [at_]; mkfield T_CFAPattern 1 [0; 1; 1; 2]])
  [mkfield T_DcrWB 7 (repeat 0 40 ++ [4; 0; 8; 0; 3; 32]); mkfield T_DcrLinearization 3 kodak_points].
Definition kodak_head : list Z := Eval vm_compute in fst kodak_layout.
Definition kodak_trees : list tree := Eval vm_compute in map tree_of (snd kodak_layout).
Definition kodak_bytes : list Z := Eval vm_compute in flat_map (fun r => flat_map (kodak_data r) (upto (kodak_segments 12))) (upto 2).
Example C62_kodak_compressed_ex : forall (M : Mode) powf parse_f32, exists img cam,
  lib_decode powf parse_f32 (one_camera "Kodak" "DCS Pro 14N" "") (kodak_head ++ kodak_bytes ++ [9]) = Ok img /\
  shows img cam Unknown 12 2 /\ is_image (i_data img) 12 2 (toned_picture kodak_points kodak_picture 12 0) /\ i_blacks img = c_blacks cam /\ kodak_balance img (visible kodak_trees) /\ e3 (i_wb img) = B754_nan.
Proof.
  intros M powf parse_f32. destruct (camera_check M (one_camera "Kodak" "DCS Pro 14N" "") "Kodak" "DCS Pro 14N" "") as (l & cam & H1 & H2 & H3 & _); [destruct M; lazy; reflexivity|].
  destruct (curve_check kodak_points ltac:(vm_compute; reflexivity)) as (Cs & Ci & Cn).
  edestruct (C62_kodak_compressed M powf parse_f32 _ l H1 true kodak_trees) with (file := kodak_head ++ kodak_bytes ++ [9]) (model := "DCS Pro 14N"%string) (w := 12) (h := 2) (o := Unknown) (cam := cam) (pic := kodak_picture) (curve := kodak_points) (seg := kodak_data) (rest := [9])
    (vs := repeat 0 40 ++ [4; 0; 8; 0; 3; 32]) as (img & E).
  - nested (snd kodak_layout).
  - change (flat_map (fun r => flat_map (kodak_data r) (upto (kodak_segments 12))) (upto 2)) with kodak_bytes. in_place.
  - lia.
  - apply numbers_check; [member|vm_compute; reflexivity].
  - exact Cs.
  - exact Ci.
  - exact Cn.
  - intros r c _ _. change (Z.of_nat (length kodak_points)) with 101. unfold kodak_picture, sample. pose proof (Z.mod_pos_bound (50 + 37 * r + 23 * c * c + 11 * c) 101 ltac:(lia)). lia.
  - intros r k Hr Hk. change (kodak_segments 12) with 1 in Hk. assert (k = 0) as -> by lia. assert (r = 0 \/ r = 1) as [-> | ->] by lia.
    + split; [apply Forall_forall; intros x Hx; vm_compute in Hx; lia|]. exists [181; 50; 64; 169; 63; 31; 59; 19; 0; 0].
      split; [vm_compute; reflexivity|split; [apply Forall_forall; intros x Hx; cbn in Hx; unfold byte; lia|split; vm_compute; reflexivity]].
    + split; [apply Forall_forall; intros x Hx; vm_compute in Hx; lia|]. exists [218; 87; 160; 84; 213; 162; 33; 168; 0; 0].
      split; [vm_compute; reflexivity|split; [apply Forall_forall; intros x Hx; cbn in Hx; unfold byte; lia|split; vm_compute; reflexivity]].
  - split; [right; member|apply bytes_check; vm_compute; reflexivity].
  - exists img, cam. exact E.
Qed.

(** Kodak, one byte for each sample, which stands for a value of a table. *)
Theorem C62_kodak_table : forall (M : Mode) powf parse_f32 db l, loader_new db = Ok l ->
  forall big ts raw model file w h o cam data rest curve,
  nested_photo l "" big ts "KODAK" model file o cam ->
  wide_picture_at ts file T_StripOffsets raw w h (data ++ rest) -> Z.of_nat (length data) = w * h ->
  has_numbers (visible ts) T_GrayResponse curve -> Z.of_nat (length curve) = 256 -> samples curve -> increasing curve -> not_too_steep curve ->
  exists img, lib_decode powf parse_f32 db file = Ok img /\ shows img cam o w h /\ Z.of_nat (length (i_data img)) = w * h /\
    (forall r c, 0 <= r < h -> 0 <= c < w -> near curve (nth (Z.to_nat (r * w + c)) data 0) (nth (Z.to_nat (r * w + c)) (i_data img) 0)) /\ i_blacks img = c_blacks cam.
Proof. exact @dcs_nested. Qed.
Print Assumptions C62_kodak_table.
Definition gray : list Z := Eval vm_compute in map (fun i => 9 * i) (upto 256).
Definition dcs_layout := lay_out true AsPlain [text_field T_Make "KODAK"; text_field T_Model "DCS420"; mkfield T_ImageWidth 3 [160]; mkfield T_StripOffsets 4 [8]]
  (fun at_ => [mkfield T_ImageWidth 3 [1002]; mkfield T_ImageLength 4 [1]; mkfield T_StripOffsets 4 [at_]; mkfield T_GrayResponse 3 gray]) [mkfield T_ImageWidth 3 [2000]].
Definition dcs_head : list Z := Eval vm_compute in fst dcs_layout.
Definition dcs_trees : list tree := Eval vm_compute in map tree_of (snd dcs_layout).
Definition dcs_data : list Z := Eval vm_compute in map (fun i => 7 * i mod 256) (upto 1002).
Example C62_kodak_table_ex : forall (M : Mode) powf parse_f32, exists img cam,
  lib_decode powf parse_f32 (one_camera "KODAK" "DCS420" "") (dcs_head ++ dcs_data ++ [3]) = Ok img /\
  shows img cam Unknown 1002 1 /\ near gray (nth 500 dcs_data 0) (nth 500 (i_data img) 0).
Proof.
  intros M powf parse_f32. destruct (camera_check M (one_camera "KODAK" "DCS420" "") "KODAK" "DCS420" "") as (l & cam & H1 & H2 & H3 & _); [destruct M; lazy; reflexivity|].
  destruct (curve_check gray ltac:(vm_compute; reflexivity)) as (Cs & Ci & Cn).
  edestruct (C62_kodak_table M powf parse_f32 _ l H1 true dcs_trees) with (file := dcs_head ++ dcs_data ++ [3]) (model := "DCS420"%string) (w := 1002) (h := 1) (o := Unknown) (cam := cam) (data := dcs_data) (rest := [3]) (curve := gray)
    as (img & E1 & E2 & _ & E3 & _).
  - nested (snd dcs_layout).
  - eapply (wide_check _ _ _ _ _ _ 160); [vm_compute; reflexivity|vm_compute; reflexivity|number|lia|number|lia|number|number].
  - vm_compute. reflexivity.
  - apply numbers_check; [member|vm_compute; reflexivity].
  - reflexivity.
  - exact Cs.
  - exact Ci.
  - exact Cn.
  - exists img, cam. split; [exact E1|]. split; [exact E2|]. exact (E3 0 500 ltac:(lia) ltac:(lia)).
Qed.

(** Nikon's small cameras: samples of 12 bits, packed; some write the even rows first,
    some turn every four bytes round. *)
Theorem C62_coolpix : forall (M : Mode) powf parse_f32 db l, loader_new db = Ok l ->
  forall big ts raw model file w h o cam data image white,
  nested_photo l "" big ts "NIKON" model file o cam ->
  wide_picture_at ts file T_CFAPattern raw w h data -> Z.even w = true -> coolpix_rows cam w h image data -> coolpix_white big cam (visible ts) white ->
  exists img, lib_decode powf parse_f32 db file = Ok img /\ shows img cam o w h /\ i_data img = image /\ i_blacks img = c_blacks cam /\ white img /\ e3 (i_wb img) = B754_nan.
Proof. exact @nrw_nested. Qed.
Print Assumptions C62_coolpix.
(** Two rows, the even one first *)
Definition coolpix_layout := lay_out false AsNikon [text_field T_Make "NIKON"; text_field T_Model "P7000"; mkfield T_ImageWidth 3 [160]; mkfield T_CFAPattern 1 [1; 1; 1; 1]]
  (fun at_ => [mkfield T_ImageWidth 3 [1002]; mkfield T_ImageLength 4 [2]; mkfield T_StripOffsets 4 [at_]; mkfield T_CFAPattern 1 [0; 1; 1; 2]]) [mkfield T_NefWB0 5 (map (fraction false) [(3, 2); (5, 4)])].
Definition coolpix_head : list Z := Eval vm_compute in fst coolpix_layout.
Definition coolpix_trees : list tree := Eval vm_compute in map tree_of (snd coolpix_layout).
Definition coolpix_row (r : Z) : list Z := map (fun i => (5 * i + 1000 * r) mod 4096) (upto 1002).
Definition row_0 : list Z := Eval vm_compute in coolpix_row 0.
Definition row_1 : list Z := Eval vm_compute in coolpix_row 1.
Definition coolpix_data : list Z := Eval vm_compute in pack 12 (row_0 ++ row_1).
Example C62_coolpix_ex : forall (M : Mode) powf parse_f32, exists img cam,
  lib_decode powf parse_f32 (with_hint "NIKON" "P7000" ["coolpixsplit"%string]) (coolpix_head ++ coolpix_data ++ [3]) = Ok img /\
  shows img cam Unknown 1002 2 /\ i_data img = row_0 ++ row_1 /\ i_blacks img = c_blacks cam /\ reads_fraction (e0 (i_wb img)) 3 2 /\ reads_fraction (e2 (i_wb img)) 5 4.
Proof.
  intros M powf parse_f32. destruct (coolpix_check M (with_hint "NIKON" "P7000" ["coolpixsplit"%string]) "NIKON" "P7000" true false false) as (l & cam & H1 & H2 & H3 & H4 & H5 & H6); [destruct M; lazy; reflexivity|].
  edestruct (C62_coolpix M powf parse_f32 _ l H1 false coolpix_trees) with (file := coolpix_head ++ coolpix_data ++ [3]) (model := "P7000"%string) (w := 1002) (h := 2) (o := Unknown) (cam := cam) (data := coolpix_data ++ [3]) (image := row_0 ++ row_1)
    (white := fun img : rawimage f32 => reads_fraction (e0 (i_wb img)) (fst (3, 2)) (snd (3, 2)) /\ nearest (e1 (i_wb img)) 1 /\ reads_fraction (e2 (i_wb img)) (fst (5, 4)) (snd (5, 4))) as (img & E1 & E2 & E3 & E4 & (E5 & _ & E6) & _).
  - nested (snd coolpix_layout).
  - eapply (wide_check _ _ _ _ _ _ 160); [vm_compute; reflexivity|vm_compute; reflexivity|number|lia|number|lia|number|number].
  - reflexivity.
  - right. left. split; [exact H4|]. exists [row_0], [row_1], [3]. split; [repeat constructor|]. split; [repeat (apply Forall_cons; [apply fits12_check; vm_compute; reflexivity|]); constructor|].
    split; [cbn [length]; lia|]. split; [reflexivity|]. split; [vm_compute; reflexivity|reflexivity].
  - apply (white_fractions _ _ _ (3, 2) (5, 4) []); [exact H6|fractions].
  - exists img, cam. exact (conj E1 (conj E2 (conj E3 (conj E4 (conj E5 E6))))).
Qed.

(** Every four bytes turned round, and Nikon's own field *)
Definition nrw_levels : list Z := Eval vm_compute in codes_of "NRW" ++ [0] ++ codes_of "0200" ++ repeat 0 48 ++ [0; 2; 0; 0; 0; 1; 0; 0; 0; 1; 0; 0; 128; 1; 0; 0].
Definition turned_layout := lay_out false AsNikon [text_field T_Make "NIKON"; text_field T_Model "P6000"; mkfield T_ImageWidth 3 [160]; mkfield T_CFAPattern 1 [1; 1; 1; 1]]
  (fun at_ => [mkfield T_ImageWidth 3 [1008]; mkfield T_ImageLength 4 [1]; mkfield T_StripOffsets 4 [at_]; mkfield T_CFAPattern 1 [0; 1; 1; 2]]) [mkfield T_NrwWB 7 nrw_levels].
Definition turned_head : list Z := Eval vm_compute in fst turned_layout.
Definition turned_trees : list tree := Eval vm_compute in map tree_of (snd turned_layout).
Definition turned_row : list Z := Eval vm_compute in map (fun i => 4 * i + 5) (upto 1008).
Definition turned_data : list Z := Eval vm_compute in swapped 4 (pack 12 turned_row).
Example C62_turned_ex : forall (M : Mode) powf parse_f32, exists img cam,
  lib_decode powf parse_f32 (with_hint "NIKON" "P6000" ["msb32"%string]) (turned_head ++ turned_data ++ [3]) = Ok img /\
  shows img cam Unknown 1008 1 /\ i_data img = turned_row /\ balance img 2048 512 1536.
Proof.
  intros M powf parse_f32. destruct (coolpix_check M (with_hint "NIKON" "P6000" ["msb32"%string]) "NIKON" "P6000" false true false) as (l & cam & H1 & H2 & H3 & H4 & H5 & H6); [destruct M; lazy; reflexivity|].
  edestruct (C62_coolpix M powf parse_f32 _ l H1 false turned_trees) with (file := turned_head ++ turned_data ++ [3]) (model := "P6000"%string) (w := 1008) (h := 1) (o := Unknown) (cam := cam) (data := turned_data ++ [3]) (image := turned_row)
    (white := fun img : rawimage f32 => balance img 2048 512 1536) as (img & E1 & E2 & E3 & _ & E5 & _).
  - nested (snd turned_layout).
  - eapply (wide_check _ _ _ _ _ _ 160); [vm_compute; reflexivity|vm_compute; reflexivity|number|lia|number|lia|number|number].
  - reflexivity.
  - right. right. split; [exact H4|]. split; [exact H5|]. split; [vm_compute; reflexivity|]. split; [reflexivity|]. split; [apply fits12_check; vm_compute; reflexivity|]. exists [3]. vm_compute. reflexivity.
  - apply (white_field _ _ _ nrw_levels); [exact H6|absent|split; [right; member|apply bytes_check; vm_compute; reflexivity]|]. left. split; [reflexivity|]. exists 56. split; [right; split; [discriminate|reflexivity]|].
    split; [vm_compute; discriminate|]. repeat (split; [vm_compute; reflexivity|]). vm_compute. reflexivity.
  - exists img, cam. auto.
Qed.
