(** Property theorems about what an image says besides its samples: C50, C51, C52. *)
From Coq Require Import String Ascii ZArith List Bool Reals.
From Flocq Require Import Core BinarySingleNaN.
From Verif Require Import Base Num F32 Bytes Tiff Cfa Camera Image Decoder Dec_Ljpeg.
From Verif Require Import Spec_Bits Spec_Cfa Spec_Tiff Spec_Meta P_Black P_Black2 P_Meta1 P_Meta2 P_Meta3 P_Meta4.
Import ListNotations.
Local Open Scope Z_scope.

(** ** C50: black levels are the means of the masked areas *)
Theorem C50_black_levels_partial : forall (M : Mode) name cam width height wb image h0 h1 v0 v1,
  pattern_name name -> cfa_new name = Ok (c_cfa cam) ->
  Z.of_nat (length image) = width * height -> samples image -> 0 <= width < 2 ^ 63 -> 0 <= height < 2 ^ 63 ->
  c_blackareah cam = (h0, h1) -> c_blackareav cam = (v0, v1) ->
  0 <= h0 -> 0 <= h1 -> h0 + h1 <= height -> 0 <= v0 -> 0 <= v1 -> v0 + v1 <= width -> h1 <> 0 \/ v1 <> 0 ->
  let levels := measured name image width (masked width height (h0, h1) (v0, v1)) in
  (forall c, 0 <= c < 4 -> total (levels c) < 2 ^ 24 /\ Z.of_nat (length (levels c)) <= 2 ^ 24) ->
  exists img, ok_image cam width height wb image = Ok img /\ forall c, 0 <= c < 4 -> at4 (i_blacks img) c = mean (levels c).
Proof. exact @image_blacks. Qed.
Print Assumptions C50_black_levels_partial.
(** Without masked areas the levels of the camera database are reported. *)
Theorem C50_no_areas : forall (M : Mode) cam width height wb image, snd (c_blackareah cam) = 0 -> snd (c_blackareav cam) = 0 ->
  exists img, ok_image cam width height wb image = Ok img /\ i_blacks img = c_blacks cam.
Proof. exact @image_no_areas. Qed.
Print Assumptions C50_no_areas.
(** The sums are kept in single precision: those of 2^24 and more are rounded,
    and the level may be less than every sample of the area. *)
Theorem C50_rounding_refuted : forall M : Mode, exists name cam image,
  pattern_name name /\ cfa_new name = Ok (c_cfa cam) /\ length image = 257%nat /\ samples image /\
  c_blackareah cam = (0, 1) /\ c_blackareav cam = (0, 0) /\
  mean (measured name image 257 (masked 257 1 (0, 1) (0, 0)) 1) = 65533 /\
  exists b, black_levels cam 257 1 image = Ok b /\ at4 b 1 = 65532.
Proof. exact rounded_levels. Qed.
Print Assumptions C50_rounding_refuted.
Example C50_ex : forall M : Mode, exists cam b, cfa_new "RGGB" = Ok (c_cfa cam) /\ c_blackareah cam = (0, 1) /\ c_blackareav cam = (0, 1) /\
  black_levels cam 4 2 [10; 20; 30; 40; 50; 60; 70; 81] = Ok b /\
  (at4 b 0, at4 b 1, at4 b 2, at4 b 3) = (16, 36, 0, 0).
Proof. exact small_levels. Qed.

(** ** C51: numbers and filter patterns of a file *)
Theorem C51_numbers : forall (M : Mode) big fs tail, Forall kept_field fs -> NoDup (map f_tag fs) -> Z.of_nat (length fs) <= 4000 ->
  Z.of_nat (length (tiff_file big fs ++ tail)) < 2 ^ 32 ->
  exists root, ifd_new_file (tiff_file big fs ++ tail) = Ok root /\
  forall f, In f fs -> exists en, find_entry root (f_tag f) = Some en /\ e_count en = Z.of_nat (length (f_vals f)) /\
    (forall qs k a b, f_vals f = map (fraction big) qs -> Forall (fun q => fits (f_typ f) (fst q) /\ fits (f_typ f) (snd q)) qs ->
       nth_error qs k = Some (a, b) -> exists x, get_f32 en (Z.of_nat k) = Ok x /\ reads_fraction x a b) /\
    (forall k v, plain_field f -> nth_error (f_vals f) k = Some v -> exists x, get_f32 en (Z.of_nat k) = Ok x /\ nearest x (IZR v)).
Proof. exact @numbers_read. Qed.
Print Assumptions C51_numbers.
Theorem C51_fraction_bytes : forall big a b,
  bytes_of big 8 (fraction big (a, b)) = bytes_of big 4 (a mod 2 ^ 32) ++ bytes_of big 4 (b mod 2 ^ 32).
Proof. exact fraction_bytes. Qed.
Print Assumptions C51_fraction_bytes.
Theorem C51_floats : forall before after (sign : bool) e m, 0 <= e < 256 -> 0 <= m < 2 ^ 23 ->
  exists x, LEf32 (before ++ little 4 ((if sign then 2 ^ 31 else 0) + e * 2 ^ 23 + m) ++ after) (Z.of_nat (length before)) = Ok x /\ ieee sign e m x.
Proof. exact floats_read. Qed.
Print Assumptions C51_floats.
(** Colours beyond red, green and blue (0, 1, 2), which the standard has, stop
    the program. *)
Theorem C51_pattern : forall (M : Mode) big fs tail f w h, Forall plain_field fs -> NoDup (map f_tag fs) -> Z.of_nat (length fs) <= 4000 ->
  Z.of_nat (length (tiff_file big fs ++ tail)) < 2 ^ 32 -> In f fs -> f_tag f = T_CFAPattern -> dims (length (f_vals f)) = Some (w, h) ->
  exists root en, ifd_new_file (tiff_file big fs ++ tail) = Ok root /\ find_entry root T_CFAPattern = Some en /\
  (Forall (fun v => 0 <= v <= 2) (f_vals f) ->
   exists p, cfa_new_from_tag en = Ok p /\ forall row col, 0 <= row < 2 ^ 63 -> 0 <= col < 2 ^ 63 ->
     color_at p row col = Ok (nth (Z.to_nat (row mod h * w + col mod w)) (f_vals f) 0)) /\
  (Exists (fun v => 2 < v) (f_vals f) -> cfa_new_from_tag en = Panic).
Proof. exact @pattern_read. Qed.
Print Assumptions C51_pattern.
(** The types FLOAT and DOUBLE cannot be read as numbers, nor can SBYTE and text. *)
Theorem C51_other_types_refuted : forall en idx, In (e_typ en) [2; 6; 11; 12] -> get_f32 en idx = Panic.
Proof. exact other_types_f32. Qed.
Print Assumptions C51_other_types_refuted.
Example C51_ex : forall M : Mode, Forall kept_field meta_fields /\ NoDup (map f_tag meta_fields) /\
  Forall (fun q => fits 5 (fst q) /\ fits 5 (snd q)) [(3, 4); (1, 3); (7, 0)] /\
  exists root en x y p, ifd_new_file (tiff_file true meta_fields) = Ok root /\ find_entry root T_AsShotNeutral = Some en /\
  get_f32 en 0 = Ok x /\ B2R x = (3 / 4)%R /\ get_f32 en 2 = Ok y /\ y = B754_infinity false /\
  match find_entry root T_CFAPattern with Some en => cfa_new_from_tag en | None => Panic end = Ok p /\
  color_at p 0 0 = Ok 2 /\ color_at p 5 4 = Ok 1 /\ color_at p 7 9 = Ok 0.
Proof. exact meta_example. Qed.

(** ** C52: colours of small Canon pictures *)
Theorem C52_colours_partial : forall (M : Mode) tiff cam levels wr wg wb pixels, find_entry tiff T_Cr2ColorData = Some levels ->
  let offset := if c_wb_offset cam =? 0 then 63 else c_wb_offset cam in
  get_force_u16 levels offset = Ok wr -> get_force_u16 levels (offset + 1) = Ok wg -> get_force_u16 levels (offset + 3) = Ok wb ->
  56 <= wr < 65536 -> 0 <= wg <= 27948 -> 56 <= wb < 65536 -> samples (flat_map parts pixels) ->
  convert_to_rgb tiff cam (flat_map parts pixels) = Ok (flat_map (canon_rgb wr wg wb (if find_hint cam "40d_yuv" then 512 else 0)) pixels).
Proof. exact @canon_colours. Qed.
Print Assumptions C52_colours_partial.
(** A white balance level below 56 overflows: a debug build stops, a release build
    makes the brightest red black. *)
Theorem C52_overflow_refuted : exists levels, get_force_u16 levels 63 = Ok 1 /\ forall tiff cam,
  find_entry tiff T_Cr2ColorData = Some levels -> c_wb_offset cam = 0 -> find_hint cam "40d_yuv" = false ->
  hd 0 (canon_rgb 1 1024 1024 0 (65535, 16383, 65535)) = 65535 /\
  convert_to_rgb (M := true) tiff cam [65535; 16383; 65535] = Panic /\
  exists g b, convert_to_rgb (M := false) tiff cam [65535; 16383; 65535] = Ok [0; g; b].
Proof. exists faint. split; [reflexivity|]. intros tiff cam E1 E2 E3. split; [reflexivity|]. exact (faint_red tiff cam E1 E2 E3). Qed.
Print Assumptions C52_overflow_refuted.
Example C52_ex : forall (M : Mode) cam, c_wb_offset cam = 0 -> find_hint cam "40d_yuv" = false ->
  convert_to_rgb (mkifd [(T_Cr2ColorData, daylight)] [] 0 0 false) cam [10000; 16383; 17383; 60000; 0; 50000] = Ok [21914; 38000; 29062; 65535; 65535; 65535].
Proof. exact daylight_colours. Qed.
