(** Raw files as cameras write them (C53): a directory of fields and, somewhere
    after it, the samples. *)
From Coq Require Import String Ascii ZArith List Bool Reals.
From Flocq Require Import BinarySingleNaN.
From Verif Require Import Base Num F32 Tiff Transform Image Camera Spec_Bits Spec_Packed Spec_Image Spec_Tiff Spec_Camera Spec_Known Spec_Meta.
Import ListNotations.
Local Open Scope Z_scope.

(** ** Fields *)
Definition codes_of (s : string) : list Z := map (fun c => Z.of_N (N_of_ascii c)) (list_ascii_of_string s).
(** ASCII (2): the characters and a zero *)
Definition text_field (tag : Z) (s : string) : field := mkfield tag 2 (codes_of s ++ [0]).
(** Printable text, no spaces around it *)
Definition printable (s : string) : Prop :=
  Forall (fun c => 32 <= c < 127) (codes_of s) /\ hd 0 (codes_of s) <> 32 /\ last (codes_of s) 0 <> 32.
(** A number is written as a SHORT (3) or a LONG (4). *)
Definition has_number (fs : list field) (tag v : Z) : Prop :=
  In (mkfield tag 3 [v]) fs /\ 0 <= v < 2 ^ 16 \/ In (mkfield tag 4 [v]) fs /\ 0 <= v < 2 ^ 32.
(** Several numbers *)
Definition has_numbers (fs : list field) (tag : Z) (vs : list Z) : Prop :=
  In (mkfield tag 3 vs) fs /\ Forall (fun v => 0 <= v < 2 ^ 16) vs \/ In (mkfield tag 4 vs) fs /\ Forall (fun v => 0 <= v < 2 ^ 32) vs.
(** Fractions, as RATIONAL (5) *)
Definition has_fractions (big : bool) (fs : list field) (tag : Z) (qs : list (Z * Z)) : Prop :=
  In (mkfield tag 5 (map (fraction big) qs)) fs /\ Forall (fun q => 0 <= fst q < 2 ^ 32 /\ 0 <= snd q < 2 ^ 32) qs.
Definition has_no (fs : list field) (tag : Z) : Prop := ~ In tag (map f_tag fs).
Definition has_orientation (fs : list field) (o : orientation) : Prop :=
  (exists v, has_number fs T_Orientation v /\ o = from_u16 (v mod 2 ^ 16)) \/ has_no fs T_Orientation /\ o = Unknown.

(** ** Files *)
Record camera_fields (fs : list field) (make model : string) : Prop := {
  cf_kept : Forall kept_field fs;
  cf_once : NoDup (map f_tag fs);
  cf_count : Z.of_nat (length fs) <= 4000;
  cf_make : In (text_field T_Make make) fs;
  cf_make_text : printable make;
  cf_model : In (text_field T_Model model) fs;
  cf_model_text : printable model
}.
(** The file: the directory, [gap], and the samples [data]; the field [tag] says
    where the samples start. *)
Record raw_file (big : bool) (fs : list field) (make model : string) (tag : Z) (gap data file : list Z) : Prop := {
  rf_fields : camera_fields fs make model;
  rf_file : file = tiff_file big fs ++ gap ++ data;
  rf_size : Z.of_nat (length file) + 16 < 2 ^ 32;
  rf_bytes : bytes data;
  rf_start : has_number fs tag (Z.of_nat (length (tiff_file big fs ++ gap)))
}.

(** Such a file from a camera that the database knows as [cam].  Models called
    DCS560C are taken for Canons whatever the make. *)
Record photo (l : loader) (mode : string) (big : bool) (fs : list field) (make model : string) (tag : Z) (gap data file : list Z)
    (o : orientation) (cam : camera) : Prop := {
  ph_file : raw_file big fs make model tag gap data file;
  ph_dng : has_no fs T_DNGVersion;
  ph_model : model <> "DCS560C"%string;
  ph_orientation : has_orientation fs o;
  ph_camera : find_camera l make model mode = Some cam;
  ph_blacks : no_black_area cam
}.

(** ** Images *)
(** What the image of a picture of [w] columns and [h] rows, taken by [cam], says
    besides the samples, the white balance and the black levels. *)
Record shows (img : rawimage f32) (cam : camera) (o : orientation) (w h : Z) : Prop := {
  s_width : i_width img = w;
  s_height : i_height img = h;
  s_cpp : i_cpp img = 1;
  s_reports : reports img cam;
  s_crops : i_crops img = c_crops cam;
  s_orientation : i_orientation img = o
}.
(** White balance: three levels.  There is no fourth one. *)
Definition balance (img : rawimage f32) (r g b : Z) : Prop :=
  nearest (e0 (i_wb img)) (IZR r) /\ nearest (e1 (i_wb img)) (IZR g) /\ nearest (e2 (i_wb img)) (IZR b) /\ e3 (i_wb img) = B754_nan.

(** ** Makers *)
(** Nikon: samples of 14 bits take two bytes; those of 12 bits are packed. *)
Definition nikon_data (big : bool) (bps : Z) (samples : list Z) : list Z :=
  if bps =? 14 then pack16 big samples else if big then pack 12 samples else pack_lsb 12 samples.
Definition nikon_mode (bps : Z) : string := if bps =? 14 then "14bit" else "12bit".
Definition panasonic_make (m : string) : Prop := In m ["Panasonic"; "LEICA"]%string.
(** Panasonic cameras have modes for the common aspect ratios. *)
Definition aspect (w h : Z) : string :=
  if 100 * w <? 125 * h then "1:1" else if 100 * w <? 145 * h then "4:3" else if 100 * w <? 165 * h then "3:2" else "16:9".
