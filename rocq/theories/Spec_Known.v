(** Which camera took the picture in a file, and what an image says about it. *)
From Coq Require Import String ZArith List Bool.
From Verif Require Import Base Num F32 Tiff Ciff Transform Image Camera Decoder Dec_Header Dec_Nef Dec_Pred Dec_Ljpeg Dispatch Clients.
From Verif Require Import Spec_Camera Spec_Dispatch.
Import ListNotations.
Local Open Scope Z_scope.

(** The mode of a picture: the bits per sample of the directory with the colour
    filter (Nikon), the aspect ratio (Panasonic), none for the others. *)
Definition mode_of (f : format) (t : ifd) (img : rawimage f32) (mode : string) : Prop :=
  match f with
  | NEF => exists raw bps, find_first_ifd t T_CFAPattern = Some raw /\ tag_usize raw T_BitsPerSample = Ok bps /\ mode = nef_mode bps
  | RW2 => mode = rw2_mode (i_width img) (i_height img)
  | _ => mode = ""%string
  end.
(** Make, model and mode of a file other than a DNG or a headerless one: from the tags,
    from the XMP text (Leaf), from the MakeModel tag (Canon CIFF), from the
    header (ARRI). *)
Inductive says (buf : list Z) (img : rawimage f32) : decoder -> string -> string -> string -> Prop :=
| says_tags : forall f t make model mode, f <> DNG -> f <> MOS -> text t Make make -> text t Model model -> mode_of f t img mode ->
    says buf img (DTiff f t) make model mode
| says_xmp : forall t make full model, xmp_tag t "Make" = Ok make -> xmp_tag t "Model" = Ok full -> before_paren full = Ok model ->
    says buf img (DTiff MOS t) make model ""
| says_minolta : forall m off t make model, text t Make make -> text t Model model -> says buf img (DMrw (m, off, t)) make model ""
| says_ciff : forall c en make model rest, cfind_entry c C_MakeModel = Some en -> cget_strings en = make :: model :: rest ->
    says buf img (DCrw c) (str_of make) (str_of model) ""
| says_arri : forall name, slice_from buf 668 = Ok name -> says buf img DAri "ARRI" (first_string name) "".
(** The camera in the database *)
Inductive taken_by (l : loader) (buf : list Z) (img : rawimage f32) : decoder -> camera -> Prop :=
| by_name : forall d make model mode cam, says buf img d make model mode -> find_camera l make model mode = Some cam -> taken_by l buf img d cam
| by_file_size : forall cam, taken_by l buf img (DNaked cam) cam.
(** The image repeats what the database says.  Pictures with three components
    per pixel (Canon's and Nikon's small raw) have levels of their own. *)
Record reports (img : rawimage f32) (cam : camera) : Prop := {
  r_make : i_make img = c_make cam;
  r_model : i_model img = c_model cam;
  r_clean_make : i_clean_make img = c_clean_make cam;
  r_clean_model : i_clean_model img = c_clean_model cam;
  r_matrix : i_xyz_to_cam img = c_xyz_to_cam cam;
  r_cfa : i_cfa img = c_cfa cam;
  r_cpp : i_cpp img = 1 \/ i_cpp img = 3;
  r_whites : i_whites img = (if i_cpp img =? 3 then all4 65535 else c_whites cam)
}.
(** The black level too, unless the file has one (Phase One, Pentax) or the
    camera declares an area of black pixels to measure it. *)
Definition own_blacks (d : decoder) : bool := match d with DTiff IIQ _ | DTiff PEF _ => true | _ => false end.
Definition no_black_area (cam : camera) : Prop := snd (c_blackareah cam) = 0 /\ snd (c_blackareav cam) = 0.
Definition reports_blacks (d : decoder) (img : rawimage f32) (cam : camera) : Prop :=
  own_blacks d = false -> no_black_area cam -> i_blacks img = (if i_cpp img =? 3 then all4 0 else c_blacks cam).
(** The crops too, unless the picture has been turned by 45 degrees (Fuji) or is
    a small raw (Canon). *)
Definition reports_crops (img : rawimage f32) (cam : camera) : Prop :=
  i_crops img = c_crops cam \/
  (i_crops img = all4 0 /\ (i_cpp img = 3 \/ In "fuji_rotation"%string (c_hints cam) \/ In "fuji_rotation_alt"%string (c_hints cam))).
(** The orientation is the one of the tag, where there is one. *)
Definition reports_orientation (d : decoder) (img : rawimage f32) (cam : camera) : Prop :=
  match d with
  | DTiff MOS _ | DNaked _ | DCrw _ | DAri | DX3f _ => i_orientation img = c_orientation cam
  | DTiff _ t | DMrw (_, _, t) =>
      match find_entry t T_Orientation with
      | Some en => exists v, get_u32 en 0 = Ok v /\ i_orientation img = from_u16 (v mod 2 ^ 16)
      | None => i_orientation img = Unknown
      end
  end.

(** The last declaration in the database with a property: later ones override
    earlier ones. *)
Definition last_with (P : declaration -> Prop) (db : list table) (d : declaration) : Prop :=
  exists before after, declarations db = before ++ d :: after /\ P d /\ forall d', In d' after -> ~ P d'.
(** The declaration of the camera of a picture: the one with the make, the model
    and the mode of the file or, for a headerless file, with its size. *)
Inductive declared (db : list table) (file : list Z) (img : rawimage f32) : decoder -> declaration -> Prop :=
| declared_name : forall d make model mode decl, says (buffer_new file) img d make model mode ->
    last_with (fun d => key d = (make, model, mode)) db decl -> declared db file img d decl
| declared_size : forall cam decl, last_with (fun d => says_size d (zlen file)) db decl -> declared db file img (DNaked cam) decl.
(** The names and the orientation of a DNG come from the database or else from
    the file. *)
Record dng_reports (l : loader) (t : ifd) (img : rawimage f32) (make model : string) : Prop := {
  dr_make : text t Make make;
  dr_model : text t Model model;
  dr_names : (i_make img, i_model img, i_clean_make img, i_clean_model img) =
    match find_camera l make model "" with
    | Some cam => (c_make cam, c_model cam, c_clean_make cam, c_clean_model cam)
    | None => (make, model, make, model)
    end;
  dr_orientation : match find_entry t T_Orientation with
    | Some en => exists v, get_u32 en 0 = Ok v /\ i_orientation img = from_u16 (v mod 2 ^ 16)
    | None => i_orientation img = Unknown
    end
}.
