(** What a well-formed camera declaration is, and the keys that the shipped
    database declares more than once. *)
From Coq Require Import String ZArith List Bool.
From Verif Require Import Base Camera Spec_Cfa Spec_Camera.
Import ListNotations.
Local Open Scope Z_scope.
Local Open Scope string_scope.

Definition is_text (v : value) : Prop := exists s, v = VStr s.
Definition is_number (lo hi : Z) (v : value) : Prop := exists n, v = VInt n /\ lo <= n <= hi.
Definition is_list (len : nat -> Prop) (each : value -> Prop) (v : value) : Prop :=
  exists l, v = VArr l /\ len (List.length l) /\ forall x, In x l -> each x.
(** The largest signed 64-bit number. *)
Definition big : Z := 9223372036854775807.

(** The attributes of a camera and the values that they may have; nothing else
    may be written in a declaration. *)
Inductive fits : string -> value -> Prop :=
| fits_text k v : In k ["make"; "model"; "mode"; "clean_make"; "clean_model"] -> is_text v -> fits k v
| fits_level k v : In k ["whitepoint"; "blackpoint"] -> is_number 0 65535 v -> fits k v
| fits_area k v : In k ["blackareah"; "blackareav"] -> is_list (fun n => n = 2%nat) (is_number 0 big) v -> fits k v
| fits_crops v : is_list (fun n => n = 4%nat) (is_number 0 big) v -> fits "crops" v
| fits_matrix v : is_list (fun n => n = 9%nat \/ n = 12%nat) (is_number (- big) big) v -> fits "color_matrix" v
| fits_pattern s : pattern_name s -> fits "color_pattern" (VStr s)
| fits_size k v : In k ["bps"; "wb_offset"; "filesize"; "raw_width"; "raw_height"] -> is_number 0 big v -> fits k v
| fits_hints v : is_list (fun n => True) is_text v -> fits "hints" v.
(** The names and the modes of a declaration. *)
Definition fits_structure (k : string) (v : value) : Prop :=
  (k = "model_aliases" /\ is_list (fun n => True) (is_list (fun n => n = 2%nat) is_text) v) \/
  (k = "modes" /\ is_list (fun n => True) (fun m => exists t, m = VTable t) v).
Definition fine (db : list table) : Prop :=
  (forall ct, In ct db -> forall k v, In (k, v) ct -> fits k v \/ fits_structure k v) /\
  (forall ct, In ct db -> forall m, In m (tl (modes ct)) -> forall k v, In (k, v) m -> fits k v) /\
  (forall ct, In ct db -> forall k, In k ["make"; "model"; "clean_make"; "clean_model"; "color_matrix"; "color_pattern"] ->
     written ct k <> None) /\
  is_toml db.

(** The (make, model, mode) that more than one of the shipped declarations
    claims. *)
Definition repeated : list (string * string * string) :=
  map (fun m => ("Canon", m, ""))
    ["Canon EOS 350D Digital"; "Canon EOS REBEL SL1"; "Canon EOS REBEL T1i"; "Canon EOS REBEL T2i";
     "Canon EOS REBEL T3"; "Canon EOS REBEL T3i"; "Canon EOS REBEL T5"; "Canon EOS REBEL T5i"] ++
  [("NIKON CORPORATION", "NIKON D5200", ""); ("NIKON CORPORATION", "NIKON D5200", "14bit")].
