(** Specification of the compression of Kodak's DCR files, independent of the model of
    the program. *)
From Coq Require Import ZArith List Bool.
From Verif Require Import Spec_Bits Spec_Huffman Spec_Ljpeg.
Import ListNotations.
Local Open Scope Z_scope.

(** A row is cut into segments of 256 pixels.  A segment is coded as a list of
    differences: first their categories, two in a byte, the first in the lower half. *)
Definition kodak_lengths (ds : list Z) : list Z :=
  map (fun k => Z.of_nat (category (nth (Z.to_nat (2 * k)) ds 0)) + 16 * Z.of_nat (category (nth (Z.to_nat (2 * k + 1)) ds 0)))
    (upto ((Z.of_nat (length ds) + 1) / 2)).
(** Then the extra bits of all differences, packed into one number from its lowest bit
    on. *)
Fixpoint kodak_number (ds : list Z) : Z :=
  match ds with [] => 0 | d :: ds => extra d + 2 ^ Z.of_nat (category d) * kodak_number ds end.
Fixpoint kodak_bits (ds : list Z) : Z :=
  match ds with [] => 0 | d :: ds => Z.of_nat (category d) + kodak_bits ds end.
(** The number is written as words of 16 bits, the lowest first, each with its high byte
    first. *)
Fixpoint words_value (l : list Z) : Z :=
  match l with a :: b :: l => 256 * a + b + 65536 * words_value l | _ => 0 end.
(** The number of words is even, but odd if the number of pixels is 4 more than a
    multiple of 8. *)
Definition kodak_size (size bits : Z) : Z :=
  if size mod 8 =? 4 then 2 + 4 * ((Z.max 0 (bits - 16) + 31) / 32) else 4 * ((bits + 31) / 32).
Definition kodak_segment (ds seg : list Z) : Prop :=
  exists payload, seg = kodak_lengths ds ++ payload /\ bytes payload /\
    Z.of_nat (length payload) = kodak_size (Z.of_nat (length ds)) (kodak_bits ds) /\
    words_value payload mod 2 ^ kodak_bits ds = kodak_number ds.
(** The difference of a pixel from the pixel of the same parity before it in the
    segment *)
Definition kodak_differences (pic : Z -> Z -> Z) (w r k : Z) : list Z :=
  map (fun i => pic r (256 * k + i) - (if i <? 2 then 0 else pic r (256 * k + i - 2))) (upto (Z.min 256 (w - 256 * k))).
Definition kodak_segments (w : Z) : Z := (w + 255) / 256.
