(** Files that end before their picture (C68). *)
From Coq Require Import String ZArith List Bool.
From Verif Require Import Base Tiff Spec_Tiff Spec_Meta Spec_File Spec_Tree.
Import ListNotations.
Local Open Scope Z_scope.

(** Makers whose files say in one place where the picture is, and the value by which
    the directory that says so is known *)
Definition strip_makers : list (string * Z) :=
  [("SEIKO EPSON CORP.", T_CFAPattern); ("Mamiya-OP Co.,Ltd.", T_CFAPattern); ("Kodak", T_CFAPattern);
   ("PENTAX Corporation", T_StripOffsets); ("RICOH IMAGING COMPANY, LTD.", T_StripOffsets); ("PENTAX", T_StripOffsets); ("Hasselblad", T_WhiteLevel);
   ("SAMSUNG", T_StripOffsets); ("SONY", T_StripOffsets); ("OLYMPUS IMAGING CORP.", T_StripOffsets); ("OLYMPUS CORPORATION", T_StripOffsets); ("OLYMPUS OPTICAL CO.,LTD", T_StripOffsets)]%string.
(** Other values of this directory without which there is another error first (C66) *)
Definition described (make : string) (fs : list field) : Prop :=
  (make = "SONY" \/ make = "SAMSUNG" -> exists compression bits, has_number fs T_Compression compression /\ has_number fs T_BitsPerSample bits)%string /\
  (make = "SONY" -> exists count, has_number fs T_StripByteCounts count)%string /\
  (In make ["OLYMPUS IMAGING CORP."; "OLYMPUS CORPORATION"; "OLYMPUS OPTICAL CO.,LTD"] -> exists counts, has_numbers fs T_StripByteCounts counts)%string.
(** The picture begins more than 16 bytes after the end of the file. *)
Definition ends_before_picture (ts : list tree) (file : list Z) (make : string) (tag : Z) : Prop :=
  exists raw w h start, directory_with ts tag raw /\ has_number (visible [raw]) T_ImageWidth w /\ has_number (visible [raw]) T_ImageLength h /\ described make (visible [raw]) /\
    has_number (visible [raw]) T_StripOffsets start /\ Z.of_nat (length file) + 16 < start.
