(** Specification of Canon's CRW compression, independent of the model of the
    program. *)
From Coq Require Import ZArith List Bool.
From Verif Require Import Spec_Bits Spec_Huffman Spec_Ljpeg.
Import ListNotations.
Local Open Scope Z_scope.

(** ** Codes *)
(** Three pairs of codes.  The symbols of the first one of a pair are categories;
    those of the second one are 16 times a number of zeros plus a category,
    0 for "only zeros follow" and 240 for sixteen zeros. *)
Definition canon_first (n : Z) : hcode :=
  if n =? 0 then mkcode [0; 1; 4; 2; 3; 1; 2; 0; 0; 0; 0; 0; 0; 0; 0; 0]
    [4; 3; 5; 6; 2; 7; 1; 8; 9; 0; 10; 11; 255]
  else if n =? 1 then mkcode [0; 2; 2; 3; 1; 1; 1; 1; 2; 0; 0; 0; 0; 0; 0; 0]
    [3; 2; 4; 1; 5; 0; 6; 7; 9; 8; 10; 11; 255]
  else mkcode [0; 0; 6; 3; 1; 1; 2; 0; 0; 0; 0; 0; 0; 0; 0; 0]
    [6; 5; 7; 4; 8; 3; 9; 2; 0; 10; 1; 11; 255].
Definition canon_second (n : Z) : hcode :=
  if n =? 0 then mkcode [0; 2; 2; 2; 1; 4; 2; 1; 2; 5; 1; 1; 0; 0; 0; 139]
    [3; 4; 2; 5; 1; 6; 7; 8; 18; 19; 17; 20; 9; 21; 34; 0; 33; 22; 10; 240; 35; 23; 36; 49; 50; 24; 25; 51;
     37; 65; 52; 66; 53; 81; 54; 55; 56; 41; 121; 38; 26; 57; 86; 87; 40; 39; 82; 85; 88; 67; 118; 89; 119;
     84; 97; 249; 113; 120; 117; 150; 151; 73; 183; 83; 215; 116; 182; 152; 71; 72; 149; 105; 153; 145; 250;
     184; 104; 181; 185; 214; 247; 216; 103; 70; 69; 148; 137; 248; 129; 213; 246; 180; 136; 177; 42; 68;
     114; 217; 135; 102; 212; 245; 58; 167; 115; 169; 168; 134; 98; 199; 101; 200; 201; 161; 244; 209; 233;
     90; 146; 133; 166; 231; 147; 232; 193; 198; 122; 100; 225; 74; 106; 230; 179; 241; 211; 165; 138; 178;
     154; 186; 132; 164; 99; 229; 197; 243; 210; 196; 130; 170; 218; 228; 242; 202; 131; 163; 162; 195; 234;
     194; 226; 227]
  else if n =? 1 then mkcode [0; 2; 2; 1; 4; 1; 4; 1; 3; 3; 1; 0; 0; 0; 0; 140]
    [2; 3; 1; 4; 5; 18; 17; 6; 19; 7; 8; 20; 34; 9; 33; 0; 35; 21; 49; 50; 10; 22; 240; 36; 51; 65; 66; 25;
     23; 37; 24; 81; 52; 67; 82; 41; 53; 97; 57; 113; 98; 54; 83; 38; 56; 26; 55; 129; 39; 145; 121; 85; 69;
     40; 114; 89; 161; 177; 68; 105; 84; 88; 209; 250; 87; 225; 241; 185; 73; 71; 99; 106; 249; 86; 70; 168;
     42; 74; 120; 153; 58; 117; 116; 134; 101; 193; 118; 182; 150; 214; 137; 133; 201; 245; 149; 180; 199;
     247; 138; 151; 184; 115; 183; 216; 217; 135; 167; 122; 72; 130; 132; 234; 244; 166; 197; 90; 148; 164;
     198; 146; 195; 104; 181; 200; 228; 229; 230; 233; 162; 163; 227; 194; 102; 103; 147; 170; 212; 213; 231;
     248; 136; 154; 215; 119; 196; 100; 226; 152; 165; 202; 218; 232; 243; 246; 169; 178; 179; 242; 210; 131;
     186; 211]
  else mkcode [0; 0; 6; 2; 1; 3; 3; 2; 5; 1; 2; 2; 8; 10; 0; 117]
    [4; 5; 3; 6; 2; 7; 1; 8; 9; 18; 19; 20; 17; 21; 10; 22; 23; 240; 0; 34; 33; 24; 35; 25; 36; 50; 49; 37;
     51; 56; 55; 52; 53; 54; 57; 121; 87; 88; 89; 40; 86; 120; 39; 65; 41; 119; 38; 66; 118; 153; 26; 85;
     152; 151; 249; 72; 84; 150; 137; 71; 183; 73; 250; 117; 104; 182; 103; 105; 185; 184; 216; 82; 215; 136;
     181; 116; 81; 70; 217; 248; 58; 214; 135; 69; 122; 149; 213; 246; 134; 180; 169; 148; 83; 42; 168; 67;
     245; 247; 212; 102; 167; 90; 68; 138; 201; 232; 200; 231; 154; 106; 115; 74; 97; 199; 244; 198; 101;
     233; 114; 230; 113; 145; 147; 166; 218; 146; 133; 98; 243; 197; 178; 164; 132; 186; 100; 165; 179; 210;
     129; 229; 211; 170; 196; 202; 242; 177; 228; 209; 131; 99; 234; 195; 226; 130; 241; 163; 194; 161; 193;
     227; 162; 225].

Definition symbol_word (h : hcode) (s : Z) : list bool := codeword (lengths (hc_counts h)) (position s (hc_syms h)).

(** ** Blocks *)
(** A block of differences: the first one by its category and extra bits, the
    others as in JPEG, by the number of zeros before a difference, its category
    and extra bits.  [run] counts zeros. *)
Fixpoint runs_coded (h : hcode) (run : nat) (ds : list Z) : list bool :=
  match ds with
  | [] => if (run =? 0)%nat then [] else symbol_word h 0
  | d :: t =>
      if d =? 0 then runs_coded h (S run) t
      else concat (repeat (symbol_word h 240) (run / 16)) ++
           symbol_word h (16 * Z.of_nat (run mod 16) + Z.of_nat (category d)) ++ extra_of d ++ runs_coded h 0 t
  end.
Definition block_coded (first second : hcode) (d : Z) (ds : list Z) : list bool :=
  symbol_word first (Z.of_nat (category d)) ++ extra_of d ++ runs_coded second 0 ds.

(** ** Pictures *)
(** Pixels are numbered row by row.  A pixel is predicted by the one two columns
    to the left, 512 in the first two columns.  Blocks of 64 pixels do not stop
    at the end of a row.  The first difference of a block is given by how much
    it differs from the first difference of the block before. *)
Definition numbered (pic : Z -> Z -> Z) (w k : Z) : Z := pic (k / w) (k mod w).
Definition canon_step (pic : Z -> Z -> Z) (w k : Z) : Z :=
  numbered pic w k - (if k mod w <? 2 then 512 else numbered pic w (k - 2)).
Definition canon_first_step (pic : Z -> Z -> Z) (w b : Z) : Z :=
  canon_step pic w (64 * b) - (if b =? 0 then 0 else canon_step pic w (64 * (b - 1))).
Definition canon_block (n : Z) (pic : Z -> Z -> Z) (w b : Z) : list bool :=
  block_coded (canon_first n) (canon_second n) (canon_first_step pic w b)
    (map (fun i => canon_step pic w (64 * b + 1 + i)) (upto 63)).
Definition canon_coded (n : Z) (pic : Z -> Z -> Z) (w h : Z) : list bool :=
  flat_map (canon_block n pic w) (upto (w * h / 64)).
(** The codes have words for the first differences below 2048 and for the others
    below 1024. *)
Definition canon_fits (pic : Z -> Z -> Z) (w h : Z) : Prop :=
  (forall r c, 0 <= r < h -> 0 <= c < w -> sample (pic r c)) /\
  (forall b, 0 <= b < w * h / 64 -> Z.abs (canon_first_step pic w b) < 2048) /\
  (forall k, 0 <= k < w * h -> k mod 64 <> 0 -> Z.abs (canon_step pic w k) < 1024).

(** Most cameras store the two low bits of the pixels separately, those of four
    pixels in a byte, and code what is above them. *)
Definition high_bits (pic : Z -> Z -> Z) (r c : Z) : Z := pic r c / 4.
Definition low_bits (pic : Z -> Z -> Z) (w j : Z) : Z :=
  let low k := numbered pic w (4 * j + k) mod 4 in low 0 + 4 * low 1 + 16 * low 2 + 64 * low 3.
(** Pictures 2672 pixels wide have 2 added to their dark pixels. *)
Definition canon_adjusted (pic : Z -> Z -> Z) (w r c : Z) : Z :=
  if (w =? 2672) && (pic r c <? 512) then pic r c + 2 else pic r c.
