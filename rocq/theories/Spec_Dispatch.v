(** What decides the format of a file, independent of the decoders. *)
From Coq Require Import String Ascii ZArith List Bool.
From Verif Require Import Base Tiff Decoder Dispatch Spec_Tiff.
Import ListNotations.
Local Open Scope Z_scope.

(** The characters of an ASCII text as bytes *)
Definition codes (s : string) : list Z := map (fun c => Z.of_nat (nat_of_ascii c)) (list_ascii_of_string s).
(** The [word] stands in the file, [n] bytes from its start. *)
Definition stands_at (file : list Z) (n : nat) (word : list Z) : Prop :=
  exists before after, file = before ++ word ++ after /\ length before = n.

(** The containers with a signature of their own, and all the others *)
Inductive container := Minolta | CanonCiff | Arri | Sigma | NoSignature.
Definition signed (file : list Z) (c : container) : Prop :=
  match c with
  | Minolta => stands_at file 0 (0 :: codes "MRM")
  | CanonCiff => stands_at file 6 (codes "HEAPCCDR")
  | Arri => stands_at file 0 (codes "ARRI")
  | Sigma => stands_at file 0 (codes "FOVb")
  | NoSignature => True
  end.
Definition rank (c : container) : nat :=
  match c with Minolta => 0 | CanonCiff => 1 | Arri => 2 | Sigma => 3 | NoSignature => 4 end.
(** The file has the signature of [c] and none that comes before. *)
Definition container_of (file : list Z) (c : container) : Prop :=
  signed file c /\ forall c', (rank c' < rank c)%nat -> ~ signed file c'.
(** The container a decoder is for *)
Definition container_read (d : decoder) : container :=
  match d with
  | DMrw _ => Minolta | DCrw _ => CanonCiff | DAri => Arri | DX3f _ => Sigma
  | DTiff _ _ => NoSignature | DNaked _ => NoSignature
  end.

(** ** TIFF files *)
(** Somewhere in the file there is the tag. *)
Definition carries (t : ifd) (tag : Z) : Prop := exists d, part_of t d /\ has_tag d tag = true.
(** The (first) tag holds the text. *)
Definition text (t : ifd) (tag : Z) (s : string) : Prop :=
  exists en, find_entry t tag = Some en /\ get_string en = Ok s.
(** The makes of the cameras that write a format *)
Definition written_by (f : format) : list string :=
  match f with
  | ARW => ["SONY"]
  | MEF => ["Mamiya-OP Co.,Ltd."]
  | ORF => ["OLYMPUS IMAGING CORP."; "OLYMPUS CORPORATION"; "OLYMPUS OPTICAL CO.,LTD"]
  | SRW => ["SAMSUNG"]
  | ERF => ["SEIKO EPSON CORP."]
  | KDC => ["EASTMAN KODAK COMPANY"]
  | DCS => ["KODAK"]
  | DCR => ["Kodak"]
  | RW2 => ["Panasonic"; "LEICA"]
  | RAF => ["FUJIFILM"]
  | PEF => ["PENTAX Corporation"; "RICOH IMAGING COMPANY, LTD."; "PENTAX"]
  | IIQ => ["Leaf"; "Phase One A/S"]
  | TFR => ["Hasselblad"]
  | NEF => ["NIKON CORPORATION"]
  | NRW => ["NIKON"]
  | CR2 => ["Canon"]
  | DNG => []
  | MOS => []
  end%string.
(** The TIFF tags Model, Make, Software and DNGVersion *)
Definition Make := 271. Definition Model := 272. Definition Software := 305. Definition DNGVersion := 50706.
(** A TIFF file is a DNG if it says so.  Otherwise the make decides, except that
    one Kodak model writes the format of Canon, and Leaf's software leaves no
    make. *)
Inductive tiff_format (t : ifd) : format -> Prop :=
| says_dng : carries t DNGVersion -> tiff_format t DNG
| kodak_560 : ~ carries t DNGVersion -> text t Model "DCS560C" -> tiff_format t CR2
| says_make : forall make f, ~ carries t DNGVersion -> (carries t Model -> exists m, text t Model m /\ m <> "DCS560C"%string) ->
    text t Make make -> In make (written_by f) -> tiff_format t f
| says_software : ~ carries t DNGVersion -> (carries t Model -> exists m, text t Model m /\ m <> "DCS560C"%string) ->
    ~ carries t Make -> text t Software "Camera Library" -> tiff_format t MOS.
(** Nothing in the TIFF file says who wrote it. *)
Definition anonymous (t : ifd) : Prop :=
  ~ carries t DNGVersion /\ (carries t Model -> exists m, text t Model m /\ m <> "DCS560C"%string) /\ ~ carries t Make /\
  (carries t Software -> exists s, text t Software s /\ s <> "Camera Library"%string).
(** The file starts like a TIFF file (in either byte order) or like Fuji's. *)
Definition tiff_like (file : list Z) : Prop :=
  stands_at file 0 (codes "II") \/ stands_at file 0 (codes "MM") \/ stands_at file 0 (codes "FUJIFILM").
