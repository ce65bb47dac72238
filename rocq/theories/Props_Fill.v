(** C07 for the compressions. *)
From Coq Require Import String ZArith List Bool.
From Verif Require Import Base Num F32 Bytes Pumps Ljpeg Tiff Ciff Camera Arw Decoder Dec_Simple Dec_Crw Dec_Pred Dec_Nef Dec_Ljpeg
  Spec_Bits Spec_Shape P_Shape6.
Import ListNotations.
Local Open Scope Z_scope.

(** C07: each routine that decompresses a picture gives [w * h] samples of 16
    bits (Nikon's small pictures three for every pixel), whatever the data and
    the tables.  Lossless JPEG writes into a buffer, whose size stays. *)
Theorem C07_compressions : forall (M : Mode) w h, 0 <= w -> 0 <= h ->
  (forall buf, fills (decode_arw1 buf w h) (w * h)) /\
  (forall buf curve, fills (decode_arw2 buf w h curve) (w * h)) /\
  (forall buf a b, fills (iiq_decompress buf a b w h) (w * h)) /\
  (forall t buf, fills (pef_decompress t buf w h) (w * h)) /\
  (forall buf, fills (orf_decompress buf w h) (w * h)) /\
  (forall buf split, fills (pana_decompress buf w h split) (w * h)) /\
  (forall t buf bps, fills (nef_decompress t buf w h bps) (w * h)) /\
  (forall powf t buf, fills (snef_decompress powf t buf w h) (w * h * 3)) /\
  (forall buf lines, fills (decode_srw1 buf lines w h) (w * h)) /\
  (forall buf, fills (decode_srw2 buf w h) (w * h)) /\
  (forall buf, fills (decode_srw3 buf w h) (w * h)) /\
  (forall buf c cam, fills (crw_decompress buf c cam w h) (w * h)) /\
  (forall buf curve, fills (decode_kodak65000 buf curve w h) (w * h)) /\
  (forall lj, fills (decode_leaf lj w h) (w * h)) /\
  (forall cam buf, fills (mos_decompress cam buf w h) (w * h)) /\
  (forall buf t raw, bytes buf -> fills (dng_uncompressed buf t raw w h) (w * h)) /\
  (forall buf raw cpp, (forall en, find_entry raw T_TileLength = Some en -> bytes (e_data en)) ->
     fills (dng_compressed buf raw w h cpp) (w * h)) /\
  (forall lj l x sw, samples l -> fills (ljpeg_decode lj l x sw w h) (Z.of_nat (length l))).
Proof. exact compressions_fill. Qed.
Print Assumptions C07_compressions.

(** Random bytes taken for data of Samsung's second compression, and for
    Olympus' *)
Example C07_samsung : decode_srw2 (M := true) [0x35; 0xa0; 0x91; 0x5b; 0x77; 0x10; 0xee; 0x42; 0x19; 0x8d; 0x01; 0xf3] 2 3 = Ok [86; 65506; 65419; 65535; 312; 65520].
Proof. vm_compute. reflexivity. Qed.
Example C07_olympus : orf_decompress (M := true) [0; 0; 0; 0; 0; 0; 0; 0x35; 0xa0; 0x91; 0x5b; 0x77; 0x10; 0xee; 0x42; 0x19; 0x8d; 0x01; 0xf3; 5; 6; 7; 8; 9; 10; 11] 2 2 = Ok [21; 65205; 89; 65482].
Proof. vm_compute. reflexivity. Qed.
