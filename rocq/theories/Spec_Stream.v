(** The bits a bit reader of each kind presents to its clients. *)
From Coq Require Import ZArith List Bool.
From Verif Require Import Base Pumps Spec_Bits Spec_Pump.
Import ListNotations.
Local Open Scope Z_scope.

(** The reader of JPEG data is followed by as many zero bits as one likes; the
    others end with their data. *)
Definition stream (k : pkind) (buf : list Z) (pad : nat) : list bool :=
  match k with
  | LSB => bits_of_lsb (whole_words buf)
  | MSB => bits_of (whole_words buf)
  | MSB32 => bits_of (swapped 4 buf)
  | JPEG => bits_of (unstuff buf) ++ repeat false pad
  end.

(** Byte strings a reader can be used on.  (The reader of JPEG data fails on
    fewer than four bytes and on data that end in FF, see C03.) *)
Definition readable (k : pkind) (buf : list Z) : Prop :=
  bytes buf /\ (k = JPEG -> 4 <= Z.of_nat (length buf) < 2 ^ 64 /\ last buf 0 <> 255).
