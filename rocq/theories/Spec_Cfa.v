(** Specification of colour filter patterns: a name is a list of letters laid
    out row by row and repeated over the plane. *)
From Coq Require Import String Ascii ZArith List Bool.
Import ListNotations.
Local Open Scope Z_scope.

(** The plane of a letter: red, green, blue, and emerald/yellow as fourth;
    magenta shares the plane of green. *)
Definition plane (c : ascii) : option Z :=
  match c with
  | "R" => Some 0 | "G" => Some 1 | "B" => Some 2 | "E" => Some 3
  | "M" => Some 1 | "Y" => Some 3
  | _ => None
  end%char.

(** Width and height of the patterns that exist, by number of letters. *)
Definition dims (letters : nat) : option (Z * Z) :=
  match letters with
  | 4%nat => Some (2, 2)
  | 16%nat => Some (2, 8)
  | 36%nat => Some (6, 6)
  | 144%nat => Some (12, 12)
  | _ => None
  end.

Definition letter (name : string) (i : Z) : ascii :=
  nth (Z.to_nat i) (list_ascii_of_string name) "000"%char.

Definition known_letters (name : string) : Prop :=
  forall c, In c (list_ascii_of_string name) -> plane c <> None.

(** The names of real patterns. *)
Definition pattern_name (name : string) : Prop :=
  dims (String.length name) <> None /\ known_letters name.

(** Colour of the infinite repetition of [name] at a position. *)
Definition colour (name : string) (row col : Z) : option Z :=
  match dims (String.length name) with
  | Some (w, h) => plane (letter name ((row mod h) * w + col mod w))
  | None => None
  end.
