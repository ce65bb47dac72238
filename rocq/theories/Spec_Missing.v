(** Files that are laid out properly but cannot be decoded (C66). *)
From Coq Require Import String ZArith List.
From Verif Require Import Tiff Camera Spec_Tiff Spec_Camera Spec_Meta Spec_File Spec_Tree Spec_TreeMore.
Import ListNotations.
Local Open Scope Z_scope.

(** A file with nested directories that names its camera and is no DNG *)
Record named_file (big : bool) (ts : list tree) (make model : string) (file : list Z) : Prop := {
  nf_file : tree_file big ts file;
  nf_names : names (visible ts) make model;
  nf_dng : has_no (visible ts) T_DNGVersion;
  nf_model : model <> "DCS560C"%string
}.
(** Makers whose camera is looked up before anything else is read *)
Definition camera_first : list string :=
  ["SONY"; "Mamiya-OP Co.,Ltd."; "OLYMPUS IMAGING CORP."; "OLYMPUS CORPORATION"; "OLYMPUS OPTICAL CO.,LTD"; "SAMSUNG"; "SEIKO EPSON CORP.";
   "EASTMAN KODAK COMPANY"; "KODAK"; "Kodak"; "FUJIFILM"; "PENTAX Corporation"; "RICOH IMAGING COMPANY, LTD."; "PENTAX"; "Leaf"; "Hasselblad";
   "NIKON"; "Canon"; "Phase One A/S"]%string.
(** The others *)
Definition camera_later : list string := ["Panasonic"; "LEICA"; "NIKON CORPORATION"]%string.
(** The tag by which the directory of the picture is known *)
Definition picture_tag : list (string * Z) :=
  [("Mamiya-OP Co.,Ltd.", T_CFAPattern); ("SEIKO EPSON CORP.", T_CFAPattern); ("Kodak", T_CFAPattern); ("NIKON CORPORATION", T_CFAPattern);
   ("OLYMPUS IMAGING CORP.", T_StripOffsets); ("OLYMPUS CORPORATION", T_StripOffsets); ("OLYMPUS OPTICAL CO.,LTD", T_StripOffsets);
   ("PENTAX Corporation", T_StripOffsets); ("RICOH IMAGING COMPANY, LTD.", T_StripOffsets); ("PENTAX", T_StripOffsets); ("SAMSUNG", T_StripOffsets);
   ("Hasselblad", T_WhiteLevel); ("FUJIFILM", T_RafOffsets)]%string.
(** Every directory with the tag [which], if there are any, holds a picture at most
    1000 wide. *)
Definition all_small (ts : list tree) (which : Z) : Prop :=
  Forall (fun t => exists w, has_number (visible [t]) T_ImageWidth w /\ w <= 1000) (filter (has_value which) (flat_map all_trees ts)).
(** The other makers: the tags by which the picture can be found, and what is said
    when all of them are missing. *)
Inductive picture_elsewhere (mode : string) (cam : camera) : string -> list Z -> string -> Prop :=
| pana_picture : forall make, make = "Panasonic"%string \/ make = "LEICA"%string -> picture_elsewhere mode cam make [T_PanaOffsets; T_StripOffsets] "Couldn't find ifd with tag"
| canon_picture : mode = ""%string -> picture_elsewhere mode cam "Canon" [T_Cr2Id; T_CFAPattern; T_Cr2OldOffset] "CR2: Couldn't find raw info"
| a100_picture : mode = ""%string -> c_model cam = "DSLR-A100"%string -> picture_elsewhere mode cam "SONY" [T_StripOffsets; T_SubIFDs] "ARW: Couldn't find the data IFD!"
| sony_picture : mode = ""%string -> c_model cam <> "DSLR-A100"%string -> picture_elsewhere mode cam "SONY" [T_StripOffsets; T_ImageWidth] "ARW: Couldn't find the data IFD!"
| easyshare_picture : mode = ""%string -> picture_elsewhere mode cam "EASTMAN KODAK COMPANY" [T_KdcWidth] "Couldn't find tag".
