(** What a camera database says: specification of the camera lookups. *)
From Coq Require Import String ZArith List Bool.
From Flocq Require Import BinarySingleNaN.
From Verif Require Import Base Num F32 Cfa Camera.
Import ListNotations.
Local Open Scope Z_scope.

(** The value written for a key in a table. *)
Definition written (t : table) (k : string) : option value :=
  option_map snd (find (fun p => String.eqb (fst p) k) t).
(** An attribute of a mode of a declaration: what the mode says, otherwise what
    the declaration says. *)
Definition attr (ct m : table) (k : string) : option value :=
  match written m k with Some v => Some v | None => written ct k end.
Definition text (o : option value) : string := match o with Some (VStr s) => s | _ => "" end.
Definition number (o : option value) : Z := match o with Some (VInt n) => n | _ => 0 end.
Definition items (o : option value) : list value := match o with Some (VArr l) => l | _ => [] end.
(** Number [i] of an array attribute: from the mode if its array is long enough,
    otherwise from the declaration, otherwise 0. *)
Definition item (ct m : table) (k : string) (i : nat) : Z :=
  match nth_error (items (written m k)) i, nth_error (items (written ct k)) i with
  | Some (VInt n), _ => n
  | _, Some (VInt n) => n
  | _, _ => 0
  end.
(** The two numbers of an area come from the same place. *)
Definition area (ct m : table) (k : string) : Z * Z :=
  let at_ i := number (nth_error (items (attr ct m k)) i) mod 2 ^ 64 in (at_ 0%nat, at_ 1%nat).
Definition size (ct m : table) (k : string) : Z := number (attr ct m k) mod 2 ^ 64.

(** The names of a declaration: its own one and its aliases, each with the clean
    name that goes with it. *)
Definition alias_names (v : value) : string * string :=
  (text (nth_error (items (Some v)) 0), text (nth_error (items (Some v)) 1)).
Definition names (ct : table) : list (string * string) :=
  (text (written ct "model"), text (written ct "clean_model")) :: map alias_names (items (written ct "model_aliases")).
(** The modes of a declaration: itself and the ones it lists. *)
Definition modes (ct : table) : list table :=
  ct :: map (fun v => match v with VTable t => t | _ => [] end) (items (written ct "modes")).
(** Everything a database declares, in order: declaration, mode and name. *)
Definition declaration : Type := table * table * (string * string).
Definition declarations (db : list table) : list declaration :=
  flat_map (fun ct => flat_map (fun n => map (fun m => (ct, m, n)) (modes ct)) (names ct)) db.
Definition key (d : declaration) : string * string * string :=
  let '(ct, m, n) := d in (text (attr ct m "make"), fst n, text (attr ct m "mode")).

(** The camera that a declaration describes. *)
Definition describes (d : declaration) (c : camera) : Prop :=
  let '(ct, m, (model, clean_model)) := d in
  c_make c = text (attr ct m "make") /\
  c_model c = model /\
  c_mode c = text (attr ct m "mode") /\
  c_clean_make c = text (attr ct m "clean_make") /\
  c_clean_model c = clean_model /\
  c_filesize c = size ct m "filesize" /\
  c_raw_width c = size ct m "raw_width" /\
  c_raw_height c = size ct m "raw_height" /\
  c_bps c = size ct m "bps" /\
  c_wb_offset c = size ct m "wb_offset" /\
  c_whites c = all4 (number (attr ct m "whitepoint") mod 2 ^ 16) /\
  c_blacks c = all4 (number (attr ct m "blackpoint") mod 2 ^ 16) /\
  c_blackareah c = area ct m "blackareah" /\
  c_blackareav c = area ct m "blackareav" /\
  c_xyz_to_cam c = (let x i := f32_of (item ct m "color_matrix" i) in
    V4 (V3 (x 0%nat) (x 1%nat) (x 2%nat)) (V3 (x 3%nat) (x 4%nat) (x 5%nat))
       (V3 (x 6%nat) (x 7%nat) (x 8%nat)) (V3 (x 9%nat) (x 10%nat) (x 11%nat))) /\
  c_crops c = (let x i := item ct m "crops" i mod 2 ^ 64 in V4 (x 0%nat) (x 1%nat) (x 2%nat) (x 3%nat)) /\
  c_hints c = map (fun v => text (Some v)) (items (attr ct m "hints")) /\
  cfa_new (text (attr ct m "color_pattern")) = Ok (c_cfa c) /\
  c_orientation c = Transform.Unknown.

(** The keys of every table are different, as TOML demands. *)
Definition unique_keys (t : table) : Prop := NoDup (map fst t).
Definition is_toml (db : list table) : Prop := forall ct m, In ct db -> In m (modes ct) -> unique_keys m.

(** A declaration gives [n] as the size of the files of the camera. *)
Definition says_size (d : declaration) (n : Z) : Prop := let '(ct, m, _) := d in size ct m "filesize" = n.
