(** Specifications about directory trees, independent of how files are parsed
    and searched. *)
From Coq Require Import ZArith List Bool.
From Verif Require Import Spec_Bits Tiff Ciff.
Import ListNotations.
Local Open Scope Z_scope.

(** ** Trees *)

(** [d] is [root] or a directory somewhere below it. *)
Inductive part_of (root : ifd) : ifd -> Prop :=
| part_root : part_of root root
| part_sub : forall d s, part_of root d -> In s (i_subs d) -> part_of root s.
(** All directories, each before those inside it, in file order. *)
Fixpoint directories (i : ifd) : list ifd :=
  let 'mkifd _ subs _ _ _ := i in
  i :: (fix go (l : list ifd) : list ifd := match l with [] => [] | s :: t => directories s ++ go t end) subs.
(** A directory has an entry with the tag. *)
Definition has_tag (d : ifd) (tag : Z) : bool := existsb (fun p => fst p =? tag) (i_entries d).
(** How many directories lie one inside another. *)
Fixpoint nesting (i : ifd) : nat :=
  let 'mkifd _ subs _ _ _ := i in
  S ((fix go (l : list ifd) : nat := match l with [] => O | s :: t => Nat.max (nesting s) (go t) end) subs).
Fixpoint cnesting (i : cifd) : nat :=
  let 'mkcifd _ subs := i in
  S ((fix go (l : list cifd) : nat := match l with [] => O | s :: t => Nat.max (cnesting s) (go t) end) subs).
Inductive cpart_of (root : cifd) : cifd -> Prop :=
| cpart_root : cpart_of root root
| cpart_sub : forall d s, cpart_of root d -> In s (ci_subs d) -> cpart_of root s.
Fixpoint cdirectories (i : cifd) : list cifd :=
  let 'mkcifd _ subs := i in
  i :: (fix go (l : list cifd) : list cifd := match l with [] => [] | s :: t => cdirectories s ++ go t end) subs.
Definition chas_tag (d : cifd) (tag : Z) : bool := existsb (fun p => fst p =? tag) (ci_entries d).

(** ** Entries *)

(** TIFF 6.0, section 2: the sizes of the field types, from BYTE (1) to DOUBLE
    (12), and IFD (13). *)
Definition type_size (typ : Z) : Z :=
  match typ with
  | 1 => 1 | 2 => 1 | 3 => 2 | 4 => 4 | 5 => 8 | 6 => 1 | 7 => 1 | 8 => 2 | 9 => 4 | 10 => 8 | 11 => 4 | 12 => 8 | 13 => 4
  | _ => 0
  end.
(** The entry's value is a piece of the file, of the size its type and count
    call for. *)
Definition owns (file : list Z) (en : entry) : Prop :=
  1 <= e_typ en <= 13 /\ 0 <= e_count en /\
  Z.of_nat (length (e_data en)) = e_count en * type_size (e_typ en) /\
  exists before after, file = before ++ e_data en ++ after.
(** CIFF: the data types (bits 11-13 of the tag) and the sizes of their elements:
    byte, text, 16 bits, 32 bits, structures and lists. *)
Definition ctype_size (typ : Z) : Z :=
  if typ =? 0x1000 then 2 else if (typ =? 0x1800) || (typ =? 0x2000) || (typ =? 0x2800) || (typ =? 0x3000) then 4 else 1.
Definition cinteger_type (typ : Z) : bool := (typ =? 0) || (typ =? 0x1000) || (typ =? 0x1800) || (typ =? 0x2000) || (typ =? 0x2800) || (typ =? 0x3000).
Definition cowns (file : list Z) (en : centry) : Prop :=
  ce_count en = Z.of_nat (length (ce_data en)) / ctype_size (ce_typ en) /\
  exists before after, file = before ++ ce_data en ++ after.
(** BYTE, SHORT, LONG, SSHORT, SLONG and IFD *)
Definition integer_type (typ : Z) : bool :=
  (typ =? 1) || (typ =? 3) || (typ =? 4) || (typ =? 8) || (typ =? 9) || (typ =? 13).

(** ** Writing a directory *)

(** [v] in [n] bytes. *)
Fixpoint little (n : nat) (v : Z) : list Z := match n with O => [] | S n' => (v mod 256) :: little n' (v / 256) end.
Definition bytes_of (big : bool) (n : nat) (v : Z) : list Z := if big then rev (little n v) else little n v.

Record field := mkfield { f_tag : Z; f_typ : Z; f_vals : list Z }.
Definition field_data (big : bool) (f : field) : list Z :=
  flat_map (bytes_of big (Z.to_nat (type_size (f_typ f)))) (f_vals f).
(** Values of at most four bytes are written in the entry, padded with zeros. *)
Definition inline (big : bool) (f : field) : bool := Z.of_nat (length (field_data big f)) <=? 4.
Definition field_entry (big : bool) (pos : Z) (f : field) : list Z :=
  bytes_of big 2 (f_tag f) ++ bytes_of big 2 (f_typ f) ++ bytes_of big 4 (Z.of_nat (length (f_vals f))) ++
  (if inline big f then firstn 4 (field_data big f ++ [0; 0; 0; 0]) else bytes_of big 4 pos).
(** The entries, when the values that are not written in them start at [pos]. *)
Fixpoint field_entries (big : bool) (pos : Z) (fs : list field) : list Z :=
  match fs with
  | [] => []
  | f :: t => field_entry big pos f ++
      field_entries big (if inline big f then pos else pos + Z.of_nat (length (field_data big f))) t
  end.
Definition outside_data (big : bool) (fs : list field) : list Z :=
  flat_map (fun f => if inline big f then [] else field_data big f) fs.
Definition directory (big : bool) (pos : Z) (fs : list field) : list Z :=
  let n := Z.of_nat (length fs) in
  bytes_of big 2 n ++ field_entries big (pos + 2 + 12 * n + 4) fs ++ bytes_of big 4 0 ++ outside_data big fs.
(** "MM" or "II", 42, and where the first directory is *)
Definition tiff_file (big : bool) (fs : list field) : list Z :=
  (if big then [77; 77] else [73; 73]) ++ bytes_of big 2 42 ++ bytes_of big 4 8 ++ directory big 8 fs.

(** Fields the program keeps as they are. *)
Definition kept_field (f : field) : Prop :=
  In (f_tag f) known_tags /\
  ~ In (f_tag f) [0x014A; 0x8769; 0xF000; 0x8290; 0xFE00; 0x927C] /\
  1 <= f_typ f <= 13.
(** Those of them that hold integers *)
Definition plain_field (f : field) : Prop :=
  In (f_tag f) known_tags /\
  ~ In (f_tag f) [0x014A; 0x8769; 0xF000; 0x8290; 0xFE00; 0x927C] /\
  integer_type (f_typ f) = true /\
  Forall (fun v => 0 <= v < 256 ^ type_size (f_typ f)) (f_vals f).
