(** Phase One files (C65).  Besides the TIFF directories, which name the camera, they
    hold a list of numbers of their own.  All its places count from byte 8. *)
From Coq Require Import String ZArith List Bool.
From Verif Require Import Base Num F32 Tiff Transform Image Camera Spec_Bits Spec_Packed Spec_Tiff Spec_Meta Spec_Tree Spec_Header Spec_Phase.
Import ListNotations.
Local Open Scope Z_scope.

(** The number in four bytes of the file, the lowest byte first *)
Definition number_at (file : list Z) (pos v : Z) : Prop := placed file pos (little 4 v) /\ 0 <= v < 2 ^ 32.
(** The list: how many there are, and for each its tag, two more numbers that do not
    count, and the value.  Byte 16 of the file says where it is. *)
Definition own_list (file : list Z) (vs : list (Z * Z)) : Prop :=
  exists start, number_at file 16 start /\ number_at file (8 + start) (Z.of_nat (length vs)) /\
    forall k tag v, nth_error vs k = Some (tag, v) -> number_at file (8 + start + 8 + 16 * Z.of_nat k) tag /\ number_at file (8 + start + 8 + 16 * Z.of_nat k + 12) v.
(** The last one with a tag counts. *)
Definition own_value (vs : list (Z * Z)) (tag v : Z) : Prop := exists before after, vs = before ++ (tag, v) :: after /\ forall v', ~ In (tag, v') after.
Definition Own_Balance := 0x107.
Definition Own_Width := 0x108.
Definition Own_Height := 0x109.
Definition Own_Data := 0x10F.
Definition Own_Rows := 0x21C.
Definition Own_Black := 0x21D.
(** Each row is coded on its own; a table says where, counted from where the data
    start.  Four bytes at a time come in reverse. *)
Definition coded_rows (file : list Z) (data table : Z) (choice : Z -> Z -> nat -> option nat) (pic : Z -> Z -> Z) (w h : Z) : Prop :=
  forall r, 0 <= r < h -> phase_possible choice pic w r /\
    exists pos code more rest, number_at file (8 + table + 4 * r) pos /\ from file (8 + data + pos) (swapped 4 code ++ more) /\
      (length code mod 4 = 0)%nat /\ bits_of code = phase_row choice pic w r ++ rest.
Record phase_photo (file : list Z) (choice : Z -> Z -> nat -> option nat) (pic : Z -> Z -> Z) (w h black : Z) (r g b : bool * Z * Z) : Prop := {
  pf_rows : exists vs data table levels, own_list file vs /\ own_value vs Own_Width w /\ own_value vs Own_Height h /\
    own_value vs Own_Data data /\ own_value vs Own_Rows table /\ coded_rows file data table choice pic w h /\
    (own_value vs Own_Black black \/ (forall v, ~ In (Own_Black, v) vs) /\ black = 0) /\
    own_value vs Own_Balance levels /\
    placed file (8 + levels) (little 4 (float_bits r)) /\ float_ok r /\
    placed file (8 + levels + 4) (little 4 (float_bits g)) /\ float_ok g /\
    placed file (8 + levels + 8) (little 4 (float_bits b)) /\ float_ok b
}.
