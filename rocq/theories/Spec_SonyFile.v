(** Sony files (C67). *)
From Coq Require Import String ZArith List Bool.
From Verif Require Import Base Tiff Image Camera Spec_Bits Spec_Image Spec_Packed Spec_Sensor Spec_Tiff Spec_Camera Spec_Meta Spec_File Spec_Tree Spec_Ljpeg Spec_Sony Spec_Nikon Spec_Curve.
Import ListNotations.
Local Open Scope Z_scope.

(** A part of the file that starts at [base] and is a directory.  The places of the
    values that do not fit in their entries count from the start of the file. *)
Fixpoint rows_based (area : list Z) (base pos : Z) (rs : list (field * Z)) : Prop :=
  match rs with
  | [] => True
  | (f, place) :: t =>
      placed area pos (field_entry false (base + place) f) /\ (inline false f = false -> placed area place (field_data false f)) /\
      0 <= f_tag f < 2 ^ 16 /\ 1 <= f_typ f <= 13 /\ is_pointer (f_tag f) = false /\ f_tag f <> note_tag /\
      rows_based area base (pos + 12) t
  end.
Definition own_directory (area : list Z) (base : Z) (fs : list field) : Prop :=
  exists rs next, map fst rs = fs /\ Z.of_nat (length rs) <= 4000 /\ NoDup (map f_tag fs) /\
    placed area 0 (bytes_of false 2 (Z.of_nat (length rs))) /\ rows_based area base 2 rs /\
    placed area (2 + 12 * Z.of_nat (length rs)) (bytes_of false 4 next) /\ 0 <= next < 2 ^ 32.
(** The bytes from [offset] on are [plain], made unreadable with [key] (C31). *)
Definition hides (file : list Z) (offset len key : Z) (plain : list Z) : Prop :=
  bytes plain /\ Z.of_nat (length plain) = 4 * (len / 4 + 1) /\ offset + Z.of_nat (length plain) <= Z.of_nat (length file) /\
  exists s, sony_sequence key s /\
    forall i : nat, 4 * Z.of_nat i < Z.of_nat (length plain) -> word_at file (offset + 4 * Z.of_nat i) = Z.lxor (word_at plain (4 * Z.of_nat i)) (s (i + 127)%nat).
(** Part of the file is hidden; another directory, whose place is one of the file's
    values, says where that is and how it is hidden. *)
Definition sony_hidden_part (big : bool) (ts : list tree) (file : list Z) (offset : Z) (plain : list Z) : Prop :=
  exists pos next t len key,
    In (mkfield T_DNGPrivateArea 1 (bytes_of big 4 pos)) (visible ts) /\ 0 <= pos < 2 ^ 32 /\ written 10 false file pos next t /\
    has_number (visible [t]) T_SonyOffset offset /\ has_number (visible [t]) T_SonyLength len /\ has_number (visible [t]) T_SonyKey key /\
    hides file offset len key plain.
(** The levels of white are in a hidden directory. *)
Definition sony_white (big : bool) (ts : list tree) (file : list Z) (r g b : Z) : Prop :=
  exists offset plain fs, sony_hidden_part big ts file offset plain /\ own_directory plain offset fs /\
    let vs := visible [Tree fs []] in
    (exists more, has_numbers vs T_SonyGRBG (g :: r :: b :: more)) \/
    has_no vs T_SonyGRBG /\ exists g2 more, has_numbers vs T_SonyRGGB (r :: g :: g2 :: b :: more).
(** A directory without them *)
Definition sony_no_white (big : bool) (ts : list tree) (file : list Z) : Prop :=
  exists offset plain fs, sony_hidden_part big ts file offset plain /\ own_directory plain offset fs /\
    has_no (visible [Tree fs []]) T_SonyGRBG /\ has_no (visible [Tree fs []]) T_SonyRGGB.
(** Something that begins with too big a number of entries to be a directory *)
Definition sony_damaged (big : bool) (ts : list tree) (file : list Z) : Prop :=
  exists offset plain n, sony_hidden_part big ts file offset plain /\ placed plain 0 (bytes_of false 2 n) /\ 4000 < n < 2 ^ 16.
(** A hidden part that goes on after the end of the file, and after the 16 bytes the
    library adds to it *)
Definition sony_cut (big : bool) (ts : list tree) (file : list Z) : Prop :=
  exists pos next t offset len key,
    In (mkfield T_DNGPrivateArea 1 (bytes_of big 4 pos)) (visible ts) /\ 0 <= pos < 2 ^ 32 /\ written 10 false file pos next t /\
    has_number (visible [t]) T_SonyOffset offset /\ has_number (visible [t]) T_SonyLength len /\ has_number (visible [t]) T_SonyKey key /\
    Z.of_nat (length file) + 16 < offset + 4 * (len / 4 + 1).
(** Bits per sample: the database knows better. *)
Definition sony_bits (cam : camera) (fs : list field) (bps : Z) : Prop :=
  c_bps cam <> 0 /\ bps = c_bps cam \/ c_bps cam = 0 /\ has_number fs T_BitsPerSample bps.
(** How the picture is stored: as plain numbers, packed, in blocks (C58), or the oldest
    way (C34), which is known by the number of bytes; then there are eight more rows
    than the directory says. *)
Inductive sony_stored (cam : camera) (fs : list field) (w h count bps : Z) : list Z -> Z -> (list Z -> Prop) -> Prop :=
| sony_plain : forall samples rest, has_number fs T_Compression 1 -> c_model cam <> "DSC-R1"%string ->
    Z.of_nat (length samples) = w * h -> Forall (Spec_Packed.fits 16) samples ->
    sony_stored cam fs w h count bps (pack16 false samples ++ rest) h (fun image => image = samples)
| sony_r1 : forall samples rest, has_number fs T_Compression 1 -> c_model cam = "DSC-R1"%string ->
    Z.of_nat (length samples) = w * h -> Forall (Spec_Packed.fits 14) samples ->
    sony_stored cam fs w h count bps (pack16 true samples ++ rest) h (fun image => image = samples)
| sony_packed : forall samples rest, has_number fs T_Compression 32767 -> bps = 12 -> w * h * 12 = count * 8 -> Z.even w = true ->
    Z.of_nat (length samples) = w * h -> Forall (Spec_Packed.fits 12) samples ->
    sony_stored cam fs w h count bps (pack_lsb 12 samples ++ rest) h (fun image => image = samples)
| sony_blocks : forall pic imax imin e1 e2 e3 e4 more data rest, has_number fs T_Compression 32767 -> bps = 8 -> w * h = count -> w mod 32 = 0 ->
    sony_picture pic imax imin w h -> has_numbers fs T_SonyCurve (e1 :: e2 :: e3 :: e4 :: more) ->
    4 <= curve_point e1 <= curve_point e2 -> curve_point e2 <= curve_point e3 <= curve_point e4 ->
    bits_of_lsb data = flat_map (sony_row pic imax imin w) (upto h) ++ rest ->
    sony_stored cam fs w h count bps data h
      (fun image => is_image image w h (sony_toned (curve_table (curve_point e1) (curve_point e2) (curve_point e3) (curve_point e4)) pic imax imin w))
| sony_old : forall pic data rest, has_number fs T_Compression 32767 -> w * h * bps <> count * 8 -> Z.even h = true ->
    (forall r c, 0 <= r < h + 8 -> 0 <= c < w -> 0 <= pic r c < 2 ^ 16) ->
    bits_of data = flat_map arw1_code (differences 0 (map (fun rc => pic (fst rc) (snd rc)) (arw1_order w (h + 8)))) ++ rest ->
    sony_stored cam fs w h count bps data (h + 8) (fun image => is_image image w (h + 8) pic).
