(** Specification vocabulary: byte strings as bit strings.  Independent of the
    model of the program. *)
From Coq Require Import ZArith List Bool.
Import ListNotations.
Local Open Scope Z_scope.

(** A byte string is a list of integers in 0..255. *)
Definition byte (b : Z) : Prop := 0 <= b < 256.
Definition bytes (l : list Z) : Prop := Forall byte l.
Definition sample (v : Z) : Prop := 0 <= v < 65536.
Definition samples (l : list Z) : Prop := Forall sample l.

(** Positional value, base 256, most / least significant byte first. *)
Fixpoint big_endian_value (l : list Z) : Z :=
  match l with
  | [] => 0
  | b :: t => b * 256 ^ Z.of_nat (length t) + big_endian_value t
  end.
Fixpoint little_endian_value (l : list Z) : Z :=
  match l with
  | [] => 0
  | b :: t => b + 256 * little_endian_value t
  end.

(** The bits of a byte, most significant first / least significant first. *)
Definition byte_bits (b : Z) : list bool :=
  map (Z.testbit b) [7; 6; 5; 4; 3; 2; 1; 0].
Definition byte_bits_lsb (b : Z) : list bool :=
  map (Z.testbit b) [0; 1; 2; 3; 4; 5; 6; 7].

(** The bits of a byte string. *)
Definition bits_of (l : list Z) : list bool := flat_map byte_bits l.
Definition bits_of_lsb (l : list Z) : list bool := flat_map byte_bits_lsb l.

(** The number written by a bit string, most significant bit first, and least
    significant bit first. *)
Fixpoint number (l : list bool) : Z :=
  match l with
  | [] => 0
  | b :: t => Z.b2z b * 2 ^ Z.of_nat (length t) + number t
  end.
Fixpoint number_lsb (l : list bool) : Z :=
  match l with
  | [] => 0
  | b :: t => Z.b2z b + 2 * number_lsb t
  end.

(** The [n]-bit field that starts at bit [off]. *)
Definition field (l : list bool) (off n : nat) : Z :=
  number (firstn n (skipn off l)).
Definition field_lsb (l : list bool) (off n : nat) : Z :=
  number_lsb (firstn n (skipn off l)).

(** The byte string in which the bytes of each consecutive group of [k] are
    reversed (a trailing incomplete group is dropped). *)
Fixpoint swap_groups (fuel : nat) (k : nat) (l : list Z) : list Z :=
  match fuel with
  | O => []
  | S fuel' =>
      if (Nat.ltb (length l) k) then []
      else rev (firstn k l) ++ swap_groups fuel' k (skipn k l)
  end.
Definition swapped (k : nat) (l : list Z) : list Z := swap_groups (length l) k l.
