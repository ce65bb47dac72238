(** DNG files (C54): what the fields of the directory say about the picture, and
    how lossless JPEG tiles make up the picture. *)
From Coq Require Import String ZArith List Bool Reals.
From Flocq Require Import BinarySingleNaN.
From Verif Require Import Base Num F32 Cfa Tiff Transform Image Camera Spec_Bits Spec_Image Spec_Stream Spec_Huffman Spec_Ljpeg Spec_Cfa Spec_Tiff Spec_Camera Spec_Meta Spec_File.
Import ListNotations.
Local Open Scope Z_scope.

(** A file that starts with the directory [fs] *)
Record directory_file (big : bool) (fs : list field) (make model : string) (file : list Z) : Prop := {
  df_fields : camera_fields fs make model;
  df_file : exists body, file = tiff_file big fs ++ body;
  df_size : Z.of_nat (length file) + 16 < 2 ^ 32;
  df_bytes : bytes file
}.
(** [stored] is the end of the file, from position [offset] on. *)
Definition from_offset (file : list Z) (offset : Z) (stored : list Z) : Prop :=
  0 <= offset <= Z.of_nat (length file) /\ skipn (Z.to_nat offset) file = stored.

(** ** What a DNG says about its picture *)
Definition fraction3 : Type := (Z * Z) * (Z * Z) * (Z * Z).
Record dng_meta : Type := mkmeta {
  (** the largest value *)
  m_white : Z;
  (** the value of black: one, or four *)
  m_black : option (list Z);
  (** the values of a grey object, relative to the largest *)
  m_neutral : option fraction3;
  (** top, left, bottom and right of the part that shows a picture *)
  m_area : option (Z * Z * Z * Z);
  (** the filters: 0 red, 1 green, 2 blue; none if every pixel has all colours *)
  m_pattern : option (list Z);
  (** from XYZ to the colours of the camera *)
  m_matrix : fraction3 * fraction3 * fraction3
}.
Definition list3 (q : fraction3) : list (Z * Z) := let '(a, b, c) := q in [a; b; c].
Definition moderate (q : Z * Z) : Prop := 0 < fst q <= 2 ^ 24 /\ 0 < snd q <= 2 ^ 24.
(** SRATIONAL (10) *)
Definition has_signed_fractions (big : bool) (fs : list field) (tag : Z) (qs : list (Z * Z)) : Prop :=
  In (mkfield tag 10 (map (fraction big) qs)) fs /\ Forall (fun q => - 2 ^ 31 <= fst q < 2 ^ 31 /\ - 2 ^ 31 <= snd q < 2 ^ 31) qs.
Record dng_fields (big : bool) (fs : list field) (w h cpp compression : Z) (o : orientation) (m : dng_meta) : Prop := {
  d_version : In T_DNGVersion (map f_tag fs);
  (** not a preview *)
  d_kind : has_no fs T_NewSubFileType \/ exists v, has_number fs T_NewSubFileType v /\ Z.even v = true;
  d_width : has_number fs T_ImageWidth w;
  d_height : has_number fs T_ImageLength h;
  d_cpp : has_number fs T_SamplesPerPixel cpp;
  d_compression : has_number fs T_Compression compression;
  d_orientation : has_orientation fs o;
  d_white : has_number fs T_WhiteLevel (m_white m) /\ m_white m < 2 ^ 16;
  d_black : match m_black m with
            | None => has_no fs T_BlackLevels
            | Some l => has_numbers fs T_BlackLevels l /\ (length l = 1%nat \/ length l = 4%nat) /\ samples l
            end;
  d_neutral : match m_neutral m with
              | None => has_no fs T_AsShotNeutral
              | Some q => has_fractions big fs T_AsShotNeutral (list3 q) /\ Forall moderate (list3 q)
              end;
  d_area : match m_area m with
           | None => has_no fs T_ActiveArea
           | Some (t, l, b, r) => has_numbers fs T_ActiveArea [t; l; b; r] /\ b <= h /\ r <= w
           end;
  d_pattern : match m_pattern m with
              | None => has_number fs T_PhotometricInt 34892
              | Some vs => has_number fs T_PhotometricInt 32803 /\ In (mkfield T_CFAPattern 1 vs) fs /\ dims (length vs) <> None /\ Forall (fun v => 0 <= v <= 2) vs
              end;
  d_matrix : let '(a, b, c) := m_matrix m in
             let qs := list3 a ++ list3 b ++ list3 c in
             has_signed_fractions big fs T_ColorMatrix2 qs \/ has_no fs T_ColorMatrix2 /\ has_signed_fractions big fs T_ColorMatrix1 qs
}.

(** ** What the image says *)
(** The white balance makes a grey object grey: one over its value. *)
Definition inverse (x : f32) (q : Z * Z) : Prop := close x (IZR (snd q) / IZR (fst q)).
Definition row_reads (row : vec3 f32) (q : fraction3) : Prop :=
  let '(a, b, c) := q in
  reads_fraction (a0 row) (fst a) (snd a) /\ reads_fraction (a1 row) (fst b) (snd b) /\ reads_fraction (a2 row) (fst c) (snd c).
Record dng_shows {M : Mode} (l : loader) (make model : string) (img : rawimage f32) (w h cpp : Z) (o : orientation) (m : dng_meta) : Prop := {
  n_width : i_width img = w;
  n_height : i_height img = h;
  n_cpp : i_cpp img = cpp;
  n_orientation : i_orientation img = o;
  (** The names are those of the camera database if it has the camera. *)
  n_names : (i_make img, i_model img, i_clean_make img, i_clean_model img) =
    match find_camera l make model "" with
    | Some cam => (c_make cam, c_model cam, c_clean_make cam, c_clean_model cam)
    | None => (make, model, make, model)
    end;
  n_white : i_whites img = all4 (m_white m);
  n_black : i_blacks img = match m_black m with
                           | Some [a; b; c; d] => V4 a b c d
                           | Some (a :: _) => all4 a
                           | _ => all4 0
                           end;
  n_neutral : match m_neutral m with
              | Some (a, b, c) => inverse (e0 (i_wb img)) a /\ inverse (e1 (i_wb img)) b /\ inverse (e2 (i_wb img)) c
              | None => e0 (i_wb img) = B754_nan /\ e1 (i_wb img) = B754_nan /\ e2 (i_wb img) = B754_nan
              end;
  n_fourth : e3 (i_wb img) = B754_nan;
  (** The crops are distances from the edges: top, right, bottom, left. *)
  n_crops : i_crops img = match m_area m with Some (t, l, b, r) => V4 t (w - r) (h - b) l | None => all4 0 end;
  n_pattern : match m_pattern m with
              | Some vs => forall pw ph row col, dims (length vs) = Some (pw, ph) -> 0 <= row < 2 ^ 63 -> 0 <= col < 2 ^ 63 ->
                  color_at (i_cfa img) row col = Ok (nth (Z.to_nat (row mod ph * pw + col mod pw)) vs 0)
              | None => cfa_is_valid (i_cfa img) = false
              end;
  n_matrix : let '(a, b, c) := m_matrix m in
    row_reads (e0 (i_xyz_to_cam img)) a /\ row_reads (e1 (i_xyz_to_cam img)) b /\ row_reads (e2 (i_xyz_to_cam img)) c /\
    e3 (i_xyz_to_cam img) = V3 (B754_zero false) (B754_zero false) (B754_zero false)
}.

(** ** Lossless JPEG *)
(** [stored] starts with a JPEG of the picture [pic], [w] x [h] pixels of [n]
    components. *)
Definition holds_jpeg (dbg : bool) (n w h : Z) (pic : picture) (stored : list Z) : Prop :=
  exists hs prec ids tables pt data tail filler,
    let codes i := nth (Z.to_nat (nth (Z.to_nat i) tables 0)) hs (mkcode [] []) in
    let base := 2 ^ (prec - pt - 1) in
    stored = jpeg_file hs prec w h ids tables pt data tail /\ n = Z.of_nat (length ids) /\
    (1 <= length hs <= 4)%nat /\ Forall (good_code dbg prec) hs /\
    12 <= prec <= 16 /\ 0 < w < 65536 /\ 0 < h < 65536 /\ 0 <= pt < Z.min prec 16 /\
    2 <= n <= 4 /\ NoDup ids /\ length tables = length ids /\ Forall (fun t => 0 <= t < Z.of_nat (length hs)) tables /\
    bytes data /\ bytes tail /\
    picture_of_samples pic n w h /\ codable prec codes n base pic w h /\
    bits_of data = coded codes n base pic w h ++ filler.
(** The samples of a picture of JPEG pixels, row by row *)
Definition flat (n : Z) (pic : picture) (r c : Z) : Z := pic r (c / n) (c mod n).
(** The picture [pic], [w] samples wide, is cut into tiles of [tw] samples by
    [th] rows.  Those at the right and lower edges may be bigger than what is left
    of the picture. *)
Definition tile_shows (n tw th w h : Z) (pic : Z -> Z -> Z) (tr tc jw jh : Z) (tile : picture) : Prop :=
  Z.min w ((tc + 1) * tw) - tc * tw <= n * jw /\ Z.min h ((tr + 1) * th) - tr * th <= jh /\
  forall r c, 0 <= r < Z.min h ((tr + 1) * th) - tr * th -> 0 <= c < Z.min w ((tc + 1) * tw) - tc * tw ->
    flat n tile r c = pic (tr * th + r) (tc * tw + c).
Definition tiles (size tile : Z) : Z := (size - 1) / tile + 1.

(** The two bytes of a sample change places. *)
Definition swap16 (v : Z) : Z := v mod 256 * 256 + v / 256.
