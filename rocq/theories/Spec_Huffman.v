(** Specification of JPEG Huffman codes (ITU T.81 annexes C and H), independent
    of the model of the program. *)
From Coq Require Import ZArith List Bool.
From Verif Require Import Spec_Bits.
Import ListNotations.
Local Open Scope Z_scope.

(** A table is given by the number of code words of each length 1, 2, 3...; the
    lengths of the code words in the order of their symbols are then: *)
Fixpoint lengths_from (l : nat) (counts : list Z) : list nat :=
  match counts with
  | [] => []
  | c :: t => repeat l (Z.to_nat c) ++ lengths_from (S l) t
  end.
Definition lengths (counts : list Z) : list nat := lengths_from 1 counts.

Definition sum (l : list Z) : Z := fold_right Z.add 0 l.

(** The share of the code space taken by the words, in units of 2^-L. *)
Definition space (L : nat) (ls : list nat) : Z :=
  sum (map (fun l => 2 ^ (Z.of_nat L - Z.of_nat l)) ls).

(** Code words are handed out in order from the start of the code space: the
    word of symbol number [k] is the number of words of its length that the
    earlier symbols take up. *)
Definition code_value (ls : list nat) (k : nat) : Z := space (nth k ls 0%nat) (firstn k ls).

(** [n]-bit binary notation, most significant bit first. *)
Fixpoint binary (n : nat) (v : Z) : list bool :=
  match n with
  | O => []
  | S m => Z.testbit v (Z.of_nat m) :: binary m v
  end.

Definition codeword (ls : list nat) (k : nat) : list bool :=
  binary (nth k ls 0%nat) (code_value ls k).

(** A well-formed table: sixteen counts, at most 256 words, and the words fit
    in the code space (Kraft's inequality). *)
Definition code_table (counts : list Z) : Prop :=
  length counts = 16%nat /\ Forall (fun c => 0 <= c) counts /\
  (length (lengths counts) <= 256)%nat /\ space 16 (lengths counts) <= 2 ^ 16.

(** The code words of a list of symbol numbers. *)
Definition encode (ls : list nat) (ks : list nat) : list bool :=
  flat_map (codeword ls) ks.

(** ** Differences (T.81, H.1.2.2) *)

(** What [n] extra bits of value [v] mean for the category [n]. *)
Definition difference (n : nat) (v : Z) : Z :=
  if (n =? 0)%nat then 0
  else if 2 ^ (Z.of_nat n - 1) <=? v then v else v - (2 ^ Z.of_nat n - 1).

(** The category of a difference: the number of bits of its magnitude. *)
Definition category (d : Z) : nat :=
  if d =? 0 then 0%nat else Z.to_nat (Z.log2 (Z.abs d) + 1).
(** Its extra bits. *)
Definition extra (d : Z) : Z := if d <? 0 then d + 2 ^ Z.of_nat (category d) - 1 else d.

(** The code of a difference in a table that assigns symbol number [index c] to
    category [c].  -32768 has category 16 and no extra bits. *)
Definition encode_diff (ls : list nat) (index : nat -> nat) (d : Z) : list bool :=
  codeword ls (index (category d)) ++
  (if (category d =? 16)%nat then [] else binary (category d) (extra d)).

(** ** Which words the program can read, and which tables it accepts *)

(** Words of more than eight bits must not be longer than the precision the
    table was made for, and the last of 256 words must not be alone in its
    length.  (Both limits are the program's, not the standard's.) *)
Definition decodable (precision : Z) (ls : list nat) (k : nat) : Prop :=
  (nth k ls 0 <= 8)%nat \/
  (Z.of_nat (nth k ls 0%nat) <= precision /\ ~ (k = 255%nat /\ (nth 254 ls 0 < nth 255 ls 0)%nat)).

(** One symbol for each word; the table is padded with zeros to 256 entries. *)
Definition symbols_for (counts syms : list Z) : Prop :=
  length syms = length (lengths counts) /\ Forall (fun s => 0 <= s <= 16) syms.
Definition padded (syms : list Z) : list Z := syms ++ repeat 0 (256 - length syms).

(** The code space is not full, or it is full without words of 16 bits. *)
Definition not_full (counts : list Z) : Prop :=
  nth 15 counts 0 = 0 \/ space 16 (lengths counts) < 2 ^ 16.

(** Category 16 has no word of more than 13 bits. *)
Definition short_16 (ls : list nat) (syms : list Z) : Prop :=
  forall k, (k < length ls)%nat -> nth k syms 0 = 16 -> (nth k ls 0 <= 13)%nat.
