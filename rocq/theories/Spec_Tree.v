(** Files whose directories lie one inside another (C59).  A directory can be
    anywhere in the file, and so can the values that do not fit into its entries.
    Some fields point to further directories; maker's notes hold one. *)
From Coq Require Import String ZArith List Bool.
From Verif Require Import Base Num F32 Tiff Transform Image Camera Spec_Bits Spec_Tiff Spec_Camera Spec_Known Spec_Meta Spec_File.
Import ListNotations.
Local Open Scope Z_scope.

(** [piece] is in the file at [pos]. *)
Definition placed (file : list Z) (pos : Z) (piece : list Z) : Prop :=
  exists before after, file = before ++ piece ++ after /\ Z.of_nat (length before) = pos.

(** ** Directories *)
Inductive tree := Tree (fields : list field) (subs : list tree).
(** SubIFDs, Exif, and three that Fujifilm and Kodak use *)
Definition pointer_tags : list Z := [0x014A; 0x8769; 0xF000; 0x8290; 0xFE00].
Definition note_tag : Z := 0x927C.
Definition is_pointer (tag : Z) : bool := existsb (fun t => t =? tag) pointer_tags.
(** Maker's notes: a directory, in some of them after a heading.  It starts at
    [snd to]; the places in it count from [fst to]. *)
Definition order_mark (big : bool) : list Z := if big then [77; 77] else [73; 73].
Definition text_at (file : list Z) (pos : Z) (s : string) (more : list Z) : Prop := placed file pos (codes_of s ++ more).
Inductive note (big : bool) (file : list Z) (pos : Z) : Z * Z -> Prop :=
| note_plain : note big file pos (0, pos)
| note_nikon : forall a b c, text_at file pos "Nikon" ([0; 2; a; b; c] ++ order_mark big) -> note big file pos (pos + 10, 8)
| note_pentax : forall a b, text_at file pos "PENTAX" ([a; b] ++ order_mark big) -> note big file pos (pos, 10)
| note_aoc : text_at file pos "AOC" ([0] ++ order_mark big) -> note big file pos (0, pos + 6)
| note_olympus : forall a b c d e, text_at file pos "OLYMPUS" [a; b; c; d; e] -> note big file pos (0, pos + 12)
| note_olymp : forall a b c, text_at file pos "OLYMP" [a; b; c] -> (a, b) <> (85, 83) -> note big file pos (0, pos + 8).

(** A field with the place of its value, if that does not fit into the entry, and the
    directories it leads to. *)
Record row := mkrow { r_field : field; r_place : Z; r_to : list (Z * Z) }.
Definition row_written (big : bool) (file : list Z) (pos : Z) (r : row) : Prop :=
  let f := r_field r in
  placed file pos (field_entry big (r_place r) f) /\
  (inline big f = false -> placed file (r_place r) (field_data big f)) /\
  0 <= f_tag f < 2 ^ 16 /\ 1 <= f_typ f <= 13 /\
  (if is_pointer (f_tag f) then (f_typ f = 4 \/ f_typ f = 13) /\ Forall (fun v => 0 <= v < 2 ^ 32) (f_vals f) /\ r_to r = map (fun v => (0, v)) (f_vals f)
   else if f_tag f =? note_tag then exists to, note big file (if inline big f then pos + 8 else r_place r) to /\ r_to r = [to]
   else r_to r = []).
Fixpoint rows_written (big : bool) (file : list Z) (pos : Z) (rs : list row) : Prop :=
  match rs with [] => True | r :: t => row_written big file pos r /\ rows_written big file (pos + 12) t end.
(** The tree is written at [pos], with at most [levels] directories one inside
    another below it; [next] is the place of the next directory. *)
Fixpoint written (levels : nat) (big : bool) (file : list Z) (pos next : Z) (t : tree) : Prop :=
  let 'Tree fs subs := t in
  exists rs, map r_field rs = fs /\ Z.of_nat (length rs) <= 4000 /\ NoDup (map f_tag fs) /\
    placed file pos (bytes_of big 2 (Z.of_nat (length rs))) /\ rows_written big file (pos + 2) rs /\
    placed file (pos + 2 + 12 * Z.of_nat (length rs)) (bytes_of big 4 next) /\ 0 <= next < 2 ^ 32 /\
    match levels with
    | O => flat_map r_to rs = [] /\ subs = []
    | S n => Forall2 (fun to s => exists next, 0 <= fst to <= Z.of_nat (length file) /\ written n big (skipn (Z.to_nat (fst to)) file) (snd to) next s) (flat_map r_to rs) subs
    end.
(** A list of directories, each with the place of the next *)
Fixpoint chained (big : bool) (file : list Z) (pos : Z) (ts : list tree) : Prop :=
  match ts with
  | [] => False
  | [t] => written 10 big file pos 0 t
  | t :: rest => exists next, next <> 0 /\ written 10 big file pos next t /\ chained big file next rest
  end.
(** A file with these directories.  The header says where the first one is.  A
    file that has the mark of Canon's own kind of files is taken for one of those. *)
Record tree_file (big : bool) (ts : list tree) (file : list Z) : Prop := {
  tf_chain : exists start, placed file 0 (order_mark big ++ bytes_of big 2 42 ++ bytes_of big 4 start) /\ 0 <= start < 2 ^ 32 /\ chained big file start ts;
  tf_kind : ~ placed file 6 (codes_of "HEAPCCDR");
  tf_count : (length ts <= 100)%nat;
  tf_size : Z.of_nat (length file) + 16 < 2 ^ 32;
  tf_bytes : bytes file
}.

(** ** Searching *)
Definition fields_of (t : tree) : list field := let 'Tree fs _ := t in fs.
(** The fields of a directory that hold values and that the program knows *)
Definition values (t : tree) : list field :=
  filter (fun f => known_tag (f_tag f) && negb (is_pointer (f_tag f)) && negb (f_tag f =? note_tag)) (fields_of t).
(** All directories, each before those inside it *)
Fixpoint all_trees (t : tree) : list tree := let 'Tree _ subs := t in t :: flat_map all_trees subs.
(** The first field of each tag *)
Fixpoint firsts (fs : list field) : list field :=
  match fs with [] => [] | f :: t => f :: filter (fun g => negb (f_tag g =? f_tag f)) (firsts t) end.
Definition visible (ts : list tree) : list field := firsts (flat_map values (flat_map all_trees ts)).
(** The first directory that has the tag *)
Definition has_value (tag : Z) (t : tree) : bool := existsb (fun f => f_tag f =? tag) (values t).
Definition directory_with (ts : list tree) (tag : Z) (t : tree) : Prop := find (has_value tag) (flat_map all_trees ts) = Some t.

(** ** Photographs *)
Record names (fs : list field) (make model : string) : Prop := {
  nm_make : In (text_field T_Make make) fs;
  nm_make_text : printable make;
  nm_model : In (text_field T_Model model) fs;
  nm_model_text : printable model
}.
(** A file from a camera that the database knows as [cam].  Models called DCS560C
    are taken for Canons whatever the make. *)
Record nested_photo (l : loader) (mode : string) (big : bool) (ts : list tree) (make model : string) (file : list Z) (o : orientation) (cam : camera) : Prop := {
  np_file : tree_file big ts file;
  np_names : names (visible ts) make model;
  np_dng : has_no (visible ts) T_DNGVersion;
  np_model : model <> "DCS560C"%string;
  np_orientation : has_orientation (visible ts) o;
  np_camera : find_camera l make model mode = Some cam;
  np_blacks : no_black_area cam
}.
(** From [off] on, the file is [data]. *)
Definition from (file : list Z) (off : Z) (data : list Z) : Prop := 0 <= off <= Z.of_nat (length file) /\ skipn (Z.to_nat off) file = data.
(** The picture is described by the first directory that has the tag [which]: its
    size, and the place from which on the file holds [data]. *)
Record picture_at (ts : list tree) (file : list Z) (which width height start : Z) (raw : tree) (w h : Z) (data : list Z) : Prop := {
  pa_directory : directory_with ts which raw;
  pa_width : has_number (visible [raw]) width w;
  pa_height : has_number (visible [raw]) height h;
  pa_data : exists off, has_number (visible [raw]) start off /\ from file off data
}.
(** Black levels of a Pentax *)
Definition pentax_blacks (fs : list field) (cam : camera) (blacks : vec4 Z) : Prop :=
  has_no fs T_PefBlackLevels /\ blacks = c_blacks cam \/
  exists b0 b1 b2 b3, has_numbers fs T_PefBlackLevels [b0; b1; b2; b3] /\ Forall (fun v => v < 2 ^ 16) [b0; b1; b2; b3] /\ blacks = V4 b0 b1 b2 b3.
