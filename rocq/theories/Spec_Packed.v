(** Specification vocabulary: packed samples.  Independent of the model of the
    program. *)
From Coq Require Import ZArith List Bool.
From Verif Require Import Base Spec_Bits.
Import ListNotations.
Local Open Scope Z_scope.

(** Sample number [k] of a string of [nb]-bit samples, most significant bit
    first and least significant bit first. *)
Definition packed_sample (nb : nat) (l : list Z) (k : Z) : Z := field (bits_of l) (nb * Z.to_nat k) nb.
Definition packed_sample_lsb (nb : nat) (l : list Z) (k : Z) : Z := field_lsb (bits_of_lsb l) (nb * Z.to_nat k) nb.

(** The byte string without its control bytes: of each 16 bytes the last one is
    a control byte. *)
Fixpoint without_control_aux (fuel : nat) (l : list Z) : list Z :=
  match fuel with
  | O => []
  | S fuel' =>
      match l with
      | [] => []
      | _ => firstn 15 l ++ without_control_aux fuel' (skipn 16 l)
      end
  end.
Definition without_control (l : list Z) : list Z := without_control_aux (length l) l.

(** A value of [nb] bits. *)
Definition fits (nb : nat) (v : Z) : Prop := 0 <= v < 2 ^ Z.of_nat nb.

(** The reference encoder: the [nb] bits of each sample one after the other,
    regrouped in bytes. *)
Fixpoint sample_bits (nb : nat) (v : Z) : list bool :=
  match nb with O => [] | S n => Z.testbit v (Z.of_nat n) :: sample_bits n v end.
Definition sample_bits_lsb (nb : nat) (v : Z) : list bool := rev (sample_bits nb v).
Fixpoint bytes_of_bits_aux (fuel : nat) (value : list bool -> Z) (l : list bool) : list Z :=
  match fuel with
  | O => []
  | S fuel' =>
      match l with
      | [] => []
      | _ => value (firstn 8 l) :: bytes_of_bits_aux fuel' value (skipn 8 l)
      end
  end.
Definition pack (nb : nat) (img : list Z) : list Z :=
  let l := flat_map (sample_bits nb) img in bytes_of_bits_aux (length l) number l.
Definition pack_lsb (nb : nat) (img : list Z) : list Z :=
  let l := flat_map (sample_bits_lsb nb) img in bytes_of_bits_aux (length l) number_lsb l.

(** The two bytes of a 16-bit sample. *)
Definition pack16 (big : bool) (img : list Z) : list Z :=
  flat_map (fun v => if big then [v / 256; v mod 256] else [v mod 256; v / 256]) img.

(** Insert a control byte [c] after every 15 bytes. *)
Fixpoint with_control_aux (fuel : nat) (c : Z) (l : list Z) : list Z :=
  match fuel with
  | O => []
  | S fuel' =>
      match l with
      | [] => []
      | _ => if (Nat.ltb (length l) 15) then l else firstn 15 l ++ [c] ++ with_control_aux fuel' c (skipn 15 l)
      end
  end.
Definition with_control (c : Z) (l : list Z) : list Z := with_control_aux (length l) c l.

(** Rows that start at a multiple of [stride] bytes: each encoded row is filled
    up with [c]. *)
Definition padded (stride c : Z) (l : list Z) : list Z := l ++ repeat c (Z.to_nat stride - length l).
Definition pack_rows (stride c : Z) (enc : list Z -> list Z) (rows : list (list Z)) : list Z :=
  concat (map (fun row => padded stride c (enc row)) rows).

(** Alternate the rows of two fields, starting with the first. *)
Fixpoint weave {A} (e o : list A) : list A :=
  match e with
  | [] => o
  | x :: e' => match o with [] => x :: e' | y :: o' => x :: y :: weave e' o' end
  end.

(** A routine that, whatever the bytes and the size, returns if anything an image
    of the requested number of samples of at most [nb] bits. *)
Definition shape_ok (nb : nat) (dec : list Z -> Z -> Z -> res (list Z)) : Prop :=
  forall buf w h img, bytes buf -> 0 <= w -> 0 <= h -> dec buf w h = Ok img ->
    Z.of_nat (length img) = w * h /\ Forall (fits nb) img.
