(** Files with a header of their own (C63): Minolta and ARRI. *)
From Coq Require Import String ZArith List Bool.
From Verif Require Import Base Num F32 Image Camera Spec_Bits Spec_Packed Spec_Tiff Spec_Camera Spec_Meta Spec_File Spec_Tree Spec_TreeMore Spec_Dispatch.
Import ListNotations.
Local Open Scope Z_scope.

(** ** Minolta *)
(** A block: its tag, its length and its contents *)
Definition block : Set := (Z * list Z)%type.
Definition block_bytes (b : block) : list Z := bytes_of true 4 (fst b) ++ bytes_of true 4 (Z.of_nat (length (snd b))) ++ snd b.
(** A file: a mark, the length of all blocks, the blocks, the picture *)
Definition minolta_file (blocks : list block) (data : list Z) : list Z :=
  [0; 77; 82; 77] ++ bytes_of true 4 (Z.of_nat (length (flat_map block_bytes blocks))) ++ flat_map block_bytes blocks ++ data.
(** "PRD", "WBG" and "TTW" *)
Definition size_tag : Z := 0x505244.
Definition white_tag : Z := 0x574247.
Definition directory_tag : Z := 0x545457.
Record minolta_blocks (blocks : list block) (w h : Z) (packed : bool) (levels : Z * Z * Z * Z) (t : tree) : Prop := {
  mb_tags : NoDup (map fst blocks) /\ Forall (fun b => 0 <= fst b < 2 ^ 32) blocks;
  mb_size : exists c, In (size_tag, c) blocks /\ 17 <= Z.of_nat (length c) /\ two_bytes c 8 = h /\ two_bytes c 10 = w /\ (packed = true <-> nth 16 c 0 = 12);
  mb_white : exists c, In (white_tag, c) blocks /\ 12 <= Z.of_nat (length c) /\ levels = (two_bytes c 4, two_bytes c 6, two_bytes c 8, two_bytes c 10);
  (** places in the directory count from the start of its block *)
  mb_directory : exists c next, In (directory_tag, c) blocks /\ written 10 true c 8 next t
}.

(** Nobody looks for a block in the last twenty bytes before the picture. *)
Definition last_long (blocks : list block) : Prop := exists before b, blocks = before ++ [b] /\ 12 < Z.of_nat (length (snd b)).

(** ** ARRI *)
(** A number of 32 bits as IEEE writes it: sign, exponent, fraction *)
Definition float_bits (x : bool * Z * Z) : Z := let '(sign, e, m) := x in (if sign then 2 ^ 31 else 0) + e * 2 ^ 23 + m.
Definition float_ok (x : bool * Z * Z) : Prop := let '(_, e, m) := x in 0 <= e < 256 /\ 0 <= m < 2 ^ 23.
(** Everything stands at a fixed place.  The picture starts at [off]. *)
Record arri_file (file : list Z) (model : string) (off w h : Z) (r g b : bool * Z * Z) : Prop := {
  ar_kind : container_of file Arri;
  ar_bytes : bytes file;
  ar_start : placed file 8 (little 4 off) /\ 0 <= off < 2 ^ 32;
  ar_width : placed file 20 (little 4 w) /\ 0 <= w < 2 ^ 32;
  ar_height : placed file 24 (little 4 h) /\ 0 <= h < 2 ^ 32;
  ar_red : placed file 100 (little 4 (float_bits r)) /\ float_ok r;
  ar_green : placed file 104 (little 4 (float_bits g)) /\ float_ok g;
  ar_blue : placed file 108 (little 4 (float_bits b)) /\ float_ok b;
  ar_model : placed file 668 (codes_of model ++ [0]) /\ printable model
}.
