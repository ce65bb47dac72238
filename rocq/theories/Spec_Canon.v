(** Canon files (C57): stripes and white balance. *)
From Coq Require Import String ZArith List Bool Reals.
From Flocq Require Import BinarySingleNaN.
From Verif Require Import Base Num F32 Tiff Transform Image Camera Spec_Bits Spec_Image Spec_Stream Spec_Huffman Spec_Ljpeg Spec_Sensor Spec_Tiff Spec_Camera Spec_Known Spec_Meta Spec_File Spec_Dng.
Import ListNotations.
Local Open Scope Z_scope.

(** The picture is cut into [k] stripes of [sw] columns and one of [last_] columns.
    The stripes follow each other, each written row by row: this is the number of
    the sample in row [r] and column [c]. *)
Definition stripe_place (k sw last_ h r c : Z) : Z :=
  let s := Z.min k (c / sw) in s * sw * h + r * (if s <? k then sw else last_) + (c - s * sw).
(** The samples, in the order in which they are written, are those of a JPEG of
    [w] samples in a row. *)
Definition numbered_sample (n w : Z) (jpeg : picture) (p : Z) : Z := flat n jpeg (p / w) (p mod w).
Definition canon_picture (fs : list field) (n w h : Z) (jpeg : picture) (pic : Z -> Z -> Z) : Prop :=
  (exists k sw last_, has_numbers fs T_Cr2StripeWidths [k; sw; last_] /\ 0 < k /\ 0 < sw /\ k * sw + last_ = w /\
     forall r c, 0 <= r < h -> 0 <= c < w -> numbered_sample n w jpeg (stripe_place k sw last_ h r c) = pic r c) \/
  has_no fs T_Cr2StripeWidths /\ forall r c, 0 <= r < h -> 0 <= c < w -> flat n jpeg r c = pic r c.

(** White balance: red, green and blue.  The colour data hold red, green, green and
    blue, in a place that depends on the camera; other cameras have other fields. *)
Inductive canon_balance (fs : list field) (cam : camera) : option (Z * Z * Z) -> Prop :=
| by_color_data : forall vs p r g g' b, In (mkfield T_Cr2ColorData 3 vs) fs -> samples vs -> p = (if c_wb_offset cam =? 0 then 63 else c_wb_offset cam) -> 0 <= p ->
    firstn 4 (skipn (Z.to_nat p) vs) = [r; g; g'; b] -> canon_balance fs cam (Some (r, g, b))
| by_powershot : forall a a' g r b rest, has_no fs T_Cr2ColorData -> In (mkfield T_Cr2PowerShotWB 4 (a :: a' :: g :: r :: b :: rest)) fs ->
    Forall (fun v => 0 <= v < 2 ^ 32) (a :: a' :: g :: r :: b :: rest) -> canon_balance fs cam (Some (r, g, b))
| by_old : forall r g b rest, has_no fs T_Cr2ColorData -> has_no fs T_Cr2PowerShotWB -> has_numbers fs T_Cr2OldWB (r :: g :: b :: rest) ->
    canon_balance fs cam (Some (r, g, b))
| by_none : has_no fs T_Cr2ColorData -> has_no fs T_Cr2PowerShotWB -> has_no fs T_Cr2OldWB -> canon_balance fs cam None.
Definition has_balance (img : rawimage f32) (b : option (Z * Z * Z)) : Prop :=
  match b with
  | Some (r, g, b) => balance img r g b
  | None => i_wb img = V4 B754_nan B754_nan B754_nan B754_nan
  end.

(** ** Small pictures *)
(** [stored] starts with a JPEG of [w] x [h] blocks of two ([v] = 1) or four ([v] = 2)
    pixels that share their colour. *)
Definition holds_small_jpeg (dbg : bool) (v w h : Z) (pic : picture) (stored : list Z) : Prop :=
  exists hs prec id1 id2 id3 s2 s3 tables predictor pt data tail filler,
    let comps := [(id1, (2, v)); (id2, s2); (id3, s3)] in
    let codes i := nth (Z.to_nat (nth (Z.to_nat i) tables 0)) hs (mkcode [] []) in
    let base := 2 ^ (prec - pt - 1) in
    stored = jpeg_sampled hs prec (2 * w) (v * h) comps tables predictor pt (stuff data ++ [255; 217] ++ tail) /\
    (v = 1 \/ v = 2) /\ (1 <= length hs <= 4)%nat /\ Forall (good_code dbg prec) hs /\
    12 <= prec <= 16 /\ (0 < w /\ 2 * w < 65536) /\ (0 < h /\ v * h < 65536) /\ 0 <= pt < Z.min prec 16 /\
    Forall (fun '(_, (a, b)) => 0 <= a <= 15 /\ 0 <= b <= 15) comps /\ NoDup [id1; id2; id3] /\
    length tables = 3%nat /\ Forall (fun t => 0 <= t < Z.of_nat (length hs)) tables /\ bytes data /\ bytes tail /\
    picture_of_samples pic (2 * v + 2) w h /\ sub_codable prec codes v base pic w h /\
    bits_of data = sub_coded codes v base pic w h ++ filler.
(** The colours of the pixels, three samples for each *)
Definition small_rgb (wr wg wb yoffset v : Z) (pic : picture) (r s : Z) : Z :=
  let p := s - s mod 3 in
  nth (Z.to_nat (s mod 3)) (canon_rgb wr wg wb yoffset (sub_sample v pic r p, sub_sample v pic r (p + 1), sub_sample v pic r (p + 2))) 0.
(** The picture [q], [w] x [h] blocks, may be cut into stripes, too. *)
Inductive arranged (fs : list field) (v w h : Z) (q : Z -> Z -> Z) : (Z -> Z -> Z) -> Prop :=
| whole : has_no fs T_Cr2StripeWidths -> arranged fs v w h q q
| one_line : forall k sw last_, v = 1 -> has_numbers fs T_Cr2StripeWidths [k; sw; last_] -> 0 < k -> 2 <= sw ->
    k * (sw / 2 * 3) + last_ / 2 * 3 = 6 * w ->
    arranged fs v w h q (fun r c => let p := stripe_place k (sw / 2 * 3) (last_ / 2 * 3) h r c in q (p / (6 * w)) (p mod (6 * w)))
| two_line : forall k t last_, v = 2 -> has_numbers fs T_Cr2StripeWidths [k; 3 * t; last_] -> 0 < k -> 0 < t -> (k + 1) * (3 * t) <= 6 * w ->
    arranged fs v w h q (two_line_stripes q (6 * w) (3 * t) (k + 1) (2 * h)).
Record shows_colours (img : rawimage f32) (cam : camera) (o : orientation) (w h : Z) : Prop := {
  k_width : i_width img = w;
  k_height : i_height img = h;
  k_cpp : i_cpp img = 3;
  k_names : (i_make img, i_model img, i_clean_make img, i_clean_model img) = (c_make cam, c_model cam, c_clean_make cam, c_clean_model cam);
  k_matrix : i_xyz_to_cam img = c_xyz_to_cam cam;
  k_levels : i_whites img = all4 65535 /\ i_blacks img = all4 0;
  k_crops : i_crops img = all4 0;
  k_orientation : i_orientation img = o
}.
