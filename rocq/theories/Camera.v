(** Model of src/decoders/mod.rs: the camera database.  The text of the
    database is parsed by the toml crate, which is not modelled: the model starts
    from the parsed values. *)
From Coq Require Import String Ascii ZArith List Bool.
From Flocq Require Import BinarySingleNaN.
From Verif Require Import Base Num F32 Cfa Transform.
Import ListNotations.
Local Open Scope Z_scope.

(** toml 0.4 [Value], without the kinds that the database does not use; an
    integer is an [i64].  A table is a map whose keys are different; the order in
    which the program visits them does not matter, and here it is the order of
    the list. *)
Inductive value : Type :=
| VStr (s : string)
| VInt (n : Z)
| VArr (l : list value)
| VTable (t : list (string * value)).
Definition table : Type := list (string * value).
(** [Table::get] *)
Fixpoint tget (t : table) (k : string) : option value :=
  match t with
  | [] => None
  | (k', v) :: t' => if String.eqb k' k then Some v else tget t' k
  end.
(** [as_str().unwrap()] and so on *)
Definition as_str (v : value) : res string := match v with VStr s => Ok s | _ => Panic end.
Definition as_integer (v : value) : res Z := match v with VInt n => Ok n | _ => Panic end.
Definition as_array (v : value) : res (list value) := match v with VArr l => Ok l | _ => Panic end.
Definition as_table (v : value) : res table := match v with VTable t => Ok t | _ => Panic end.

(** mod.rs:94-114 [Camera] *)
Record camera := mkcam {
  c_make : string;
  c_model : string;
  c_mode : string;
  c_clean_make : string;
  c_clean_model : string;
  c_filesize : Z;
  c_raw_width : Z;
  c_raw_height : Z;
  c_orientation : orientation;
  c_whites : vec4 Z;
  c_blacks : vec4 Z;
  c_blackareah : Z * Z;
  c_blackareav : Z * Z;
  c_xyz_to_cam : vec4 (vec3 f32);
  c_cfa : CFA;
  c_crops : vec4 Z;
  c_bps : Z;
  c_wb_offset : Z;
  c_hints : list string
}.
Definition set_make (x : string) (c : camera) : camera :=
  mkcam x (c_model c) (c_mode c) (c_clean_make c) (c_clean_model c) (c_filesize c) (c_raw_width c) (c_raw_height c) (c_orientation c) (c_whites c) (c_blacks c) (c_blackareah c) (c_blackareav c) (c_xyz_to_cam c) (c_cfa c) (c_crops c) (c_bps c) (c_wb_offset c) (c_hints c).
Definition set_model (x : string) (c : camera) : camera :=
  mkcam (c_make c) x (c_mode c) (c_clean_make c) (c_clean_model c) (c_filesize c) (c_raw_width c) (c_raw_height c) (c_orientation c) (c_whites c) (c_blacks c) (c_blackareah c) (c_blackareav c) (c_xyz_to_cam c) (c_cfa c) (c_crops c) (c_bps c) (c_wb_offset c) (c_hints c).
Definition set_mode (x : string) (c : camera) : camera :=
  mkcam (c_make c) (c_model c) x (c_clean_make c) (c_clean_model c) (c_filesize c) (c_raw_width c) (c_raw_height c) (c_orientation c) (c_whites c) (c_blacks c) (c_blackareah c) (c_blackareav c) (c_xyz_to_cam c) (c_cfa c) (c_crops c) (c_bps c) (c_wb_offset c) (c_hints c).
Definition set_clean_make (x : string) (c : camera) : camera :=
  mkcam (c_make c) (c_model c) (c_mode c) x (c_clean_model c) (c_filesize c) (c_raw_width c) (c_raw_height c) (c_orientation c) (c_whites c) (c_blacks c) (c_blackareah c) (c_blackareav c) (c_xyz_to_cam c) (c_cfa c) (c_crops c) (c_bps c) (c_wb_offset c) (c_hints c).
Definition set_clean_model (x : string) (c : camera) : camera :=
  mkcam (c_make c) (c_model c) (c_mode c) (c_clean_make c) x (c_filesize c) (c_raw_width c) (c_raw_height c) (c_orientation c) (c_whites c) (c_blacks c) (c_blackareah c) (c_blackareav c) (c_xyz_to_cam c) (c_cfa c) (c_crops c) (c_bps c) (c_wb_offset c) (c_hints c).
Definition set_filesize (x : Z) (c : camera) : camera :=
  mkcam (c_make c) (c_model c) (c_mode c) (c_clean_make c) (c_clean_model c) x (c_raw_width c) (c_raw_height c) (c_orientation c) (c_whites c) (c_blacks c) (c_blackareah c) (c_blackareav c) (c_xyz_to_cam c) (c_cfa c) (c_crops c) (c_bps c) (c_wb_offset c) (c_hints c).
Definition set_raw_width (x : Z) (c : camera) : camera :=
  mkcam (c_make c) (c_model c) (c_mode c) (c_clean_make c) (c_clean_model c) (c_filesize c) x (c_raw_height c) (c_orientation c) (c_whites c) (c_blacks c) (c_blackareah c) (c_blackareav c) (c_xyz_to_cam c) (c_cfa c) (c_crops c) (c_bps c) (c_wb_offset c) (c_hints c).
Definition set_raw_height (x : Z) (c : camera) : camera :=
  mkcam (c_make c) (c_model c) (c_mode c) (c_clean_make c) (c_clean_model c) (c_filesize c) (c_raw_width c) x (c_orientation c) (c_whites c) (c_blacks c) (c_blackareah c) (c_blackareav c) (c_xyz_to_cam c) (c_cfa c) (c_crops c) (c_bps c) (c_wb_offset c) (c_hints c).
Definition set_orientation (x : orientation) (c : camera) : camera :=
  mkcam (c_make c) (c_model c) (c_mode c) (c_clean_make c) (c_clean_model c) (c_filesize c) (c_raw_width c) (c_raw_height c) x (c_whites c) (c_blacks c) (c_blackareah c) (c_blackareav c) (c_xyz_to_cam c) (c_cfa c) (c_crops c) (c_bps c) (c_wb_offset c) (c_hints c).
Definition set_whites (x : vec4 Z) (c : camera) : camera :=
  mkcam (c_make c) (c_model c) (c_mode c) (c_clean_make c) (c_clean_model c) (c_filesize c) (c_raw_width c) (c_raw_height c) (c_orientation c) x (c_blacks c) (c_blackareah c) (c_blackareav c) (c_xyz_to_cam c) (c_cfa c) (c_crops c) (c_bps c) (c_wb_offset c) (c_hints c).
Definition set_blacks (x : vec4 Z) (c : camera) : camera :=
  mkcam (c_make c) (c_model c) (c_mode c) (c_clean_make c) (c_clean_model c) (c_filesize c) (c_raw_width c) (c_raw_height c) (c_orientation c) (c_whites c) x (c_blackareah c) (c_blackareav c) (c_xyz_to_cam c) (c_cfa c) (c_crops c) (c_bps c) (c_wb_offset c) (c_hints c).
Definition set_blackareah (x : Z * Z) (c : camera) : camera :=
  mkcam (c_make c) (c_model c) (c_mode c) (c_clean_make c) (c_clean_model c) (c_filesize c) (c_raw_width c) (c_raw_height c) (c_orientation c) (c_whites c) (c_blacks c) x (c_blackareav c) (c_xyz_to_cam c) (c_cfa c) (c_crops c) (c_bps c) (c_wb_offset c) (c_hints c).
Definition set_blackareav (x : Z * Z) (c : camera) : camera :=
  mkcam (c_make c) (c_model c) (c_mode c) (c_clean_make c) (c_clean_model c) (c_filesize c) (c_raw_width c) (c_raw_height c) (c_orientation c) (c_whites c) (c_blacks c) (c_blackareah c) x (c_xyz_to_cam c) (c_cfa c) (c_crops c) (c_bps c) (c_wb_offset c) (c_hints c).
Definition set_xyz_to_cam (x : vec4 (vec3 f32)) (c : camera) : camera :=
  mkcam (c_make c) (c_model c) (c_mode c) (c_clean_make c) (c_clean_model c) (c_filesize c) (c_raw_width c) (c_raw_height c) (c_orientation c) (c_whites c) (c_blacks c) (c_blackareah c) (c_blackareav c) x (c_cfa c) (c_crops c) (c_bps c) (c_wb_offset c) (c_hints c).
Definition set_cfa (x : CFA) (c : camera) : camera :=
  mkcam (c_make c) (c_model c) (c_mode c) (c_clean_make c) (c_clean_model c) (c_filesize c) (c_raw_width c) (c_raw_height c) (c_orientation c) (c_whites c) (c_blacks c) (c_blackareah c) (c_blackareav c) (c_xyz_to_cam c) x (c_crops c) (c_bps c) (c_wb_offset c) (c_hints c).
Definition set_crops (x : vec4 Z) (c : camera) : camera :=
  mkcam (c_make c) (c_model c) (c_mode c) (c_clean_make c) (c_clean_model c) (c_filesize c) (c_raw_width c) (c_raw_height c) (c_orientation c) (c_whites c) (c_blacks c) (c_blackareah c) (c_blackareav c) (c_xyz_to_cam c) (c_cfa c) x (c_bps c) (c_wb_offset c) (c_hints c).
Definition set_bps (x : Z) (c : camera) : camera :=
  mkcam (c_make c) (c_model c) (c_mode c) (c_clean_make c) (c_clean_model c) (c_filesize c) (c_raw_width c) (c_raw_height c) (c_orientation c) (c_whites c) (c_blacks c) (c_blackareah c) (c_blackareav c) (c_xyz_to_cam c) (c_cfa c) (c_crops c) x (c_wb_offset c) (c_hints c).
Definition set_wb_offset (x : Z) (c : camera) : camera :=
  mkcam (c_make c) (c_model c) (c_mode c) (c_clean_make c) (c_clean_model c) (c_filesize c) (c_raw_width c) (c_raw_height c) (c_orientation c) (c_whites c) (c_blacks c) (c_blackareah c) (c_blackareav c) (c_xyz_to_cam c) (c_cfa c) (c_crops c) (c_bps c) x (c_hints c).
Definition set_hints (x : list string) (c : camera) : camera :=
  mkcam (c_make c) (c_model c) (c_mode c) (c_clean_make c) (c_clean_model c) (c_filesize c) (c_raw_width c) (c_raw_height c) (c_orientation c) (c_whites c) (c_blacks c) (c_blackareah c) (c_blackareav c) (c_xyz_to_cam c) (c_cfa c) (c_crops c) (c_bps c) (c_wb_offset c) x.

(** mod.rs:117-119 [find_hint] *)
Definition find_hint (c : camera) (hint : string) : bool := existsb (String.eqb hint) (c_hints c).

(** Writing into [[T;3]] and [[T;4]] *)
Definition set3 {A} (v : vec3 A) (i : Z) (x : A) : res (vec3 A) :=
  if i =? 0 then Ok (V3 x (a1 v) (a2 v)) else if i =? 1 then Ok (V3 (a0 v) x (a2 v))
  else if i =? 2 then Ok (V3 (a0 v) (a1 v) x) else Panic.
Definition get4 {A} (v : vec4 A) (i : Z) : res A :=
  if i =? 0 then Ok (e0 v) else if i =? 1 then Ok (e1 v) else if i =? 2 then Ok (e2 v) else if i =? 3 then Ok (e3 v) else Panic.
Definition set4 {A} (v : vec4 A) (i : Z) (x : A) : res (vec4 A) :=
  if i =? 0 then Ok (V4 x (e1 v) (e2 v) (e3 v)) else if i =? 1 then Ok (V4 (e0 v) x (e2 v) (e3 v))
  else if i =? 2 then Ok (V4 (e0 v) (e1 v) x (e3 v)) else if i =? 3 then Ok (V4 (e0 v) (e1 v) (e2 v) x) else Panic.
Definition all4 {A} (x : A) : vec4 A := V4 x x x x.

(** [for (i, val) in array.into_iter().enumerate()] *)
Fixpoint each {S} (f : Z -> value -> S -> res S) (i : Z) (l : list value) (s : S) : res S :=
  match l with
  | [] => Ok s
  | v :: t => s' <- f i v s ;; each f (i + 1) t s'
  end.
(** mod.rs:131-140: the first two numbers of an array *)
Definition area_of (v : value) : res (Z * Z) :=
  vals <- as_array v ;;
  v0 <- get vals 0 ;; x <- as_integer v0 ;;
  v1 <- get vals 1 ;; y <- as_integer v1 ;;
  Ok (as_u64 x, as_u64 y).
(** mod.rs:141-146 *)
Definition matrix_of (m : vec4 (vec3 f32)) (v : value) : res (vec4 (vec3 f32)) :=
  vals <- as_array v ;;
  each (fun i v m =>
          row <- get4 m (i / 3) ;; x <- as_integer v ;;
          row <- set3 row (i mod 3) (f32_of x) ;; set4 m (i / 3) row) 0 vals m.
(** mod.rs:147-152 *)
Definition crops_of (c : vec4 Z) (v : value) : res (vec4 Z) :=
  vals <- as_array v ;;
  each (fun i v c => x <- as_integer v ;; set4 c i (as_u64 x)) 0 vals c.

(** mod.rs:123-166: one attribute *)
Definition set_attr (name : string) (val : value) (c : camera) : res camera :=
  if String.eqb name "make" then s <- as_str val ;; Ok (set_make s c)
  else if String.eqb name "model" then s <- as_str val ;; Ok (set_model s c)
  else if String.eqb name "mode" then s <- as_str val ;; Ok (set_mode s c)
  else if String.eqb name "clean_make" then s <- as_str val ;; Ok (set_clean_make s c)
  else if String.eqb name "clean_model" then s <- as_str val ;; Ok (set_clean_model s c)
  else if String.eqb name "whitepoint" then n <- as_integer val ;; Ok (set_whites (all4 (as_u16 n)) c)
  else if String.eqb name "blackpoint" then n <- as_integer val ;; Ok (set_blacks (all4 (as_u16 n)) c)
  else if String.eqb name "blackareah" then a <- area_of val ;; Ok (set_blackareah a c)
  else if String.eqb name "blackareav" then a <- area_of val ;; Ok (set_blackareav a c)
  else if String.eqb name "color_matrix" then m <- matrix_of (c_xyz_to_cam c) val ;; Ok (set_xyz_to_cam m c)
  else if String.eqb name "crops" then v <- crops_of (c_crops c) val ;; Ok (set_crops v c)
  else if String.eqb name "color_pattern" then s <- as_str val ;; f <- cfa_new s ;; Ok (set_cfa f c)
  else if String.eqb name "bps" then n <- as_integer val ;; Ok (set_bps (as_u64 n) c)
  else if String.eqb name "wb_offset" then n <- as_integer val ;; Ok (set_wb_offset (as_u64 n) c)
  else if String.eqb name "filesize" then n <- as_integer val ;; Ok (set_filesize (as_u64 n) c)
  else if String.eqb name "raw_width" then n <- as_integer val ;; Ok (set_raw_width (as_u64 n) c)
  else if String.eqb name "raw_height" then n <- as_integer val ;; Ok (set_raw_height (as_u64 n) c)
  else if String.eqb name "hints" then l <- as_array val ;; hs <- mapM as_str l ;; Ok (set_hints hs c)
  else Ok c.
(** mod.rs:121-168 [update_from_toml] *)
Definition update_from_toml (c : camera) (ct : table) : res camera :=
  rfold (fun '(name, val) c => set_attr name val c) ct c.

(** mod.rs:170-192 [Camera::new] *)
Definition camera_new : res camera :=
  f <- cfa_new "" ;;
  Ok (mkcam "" "" "" "" "" 0 0 0 Unknown (all4 0) (all4 0) (0, 0) (0, 0)
            (all4 (V3 (f32_of 0) (f32_of 0) (f32_of 0))) f (all4 0) 0 0 []).

(** mod.rs:279-286 *)
Definition modes_of (ct : table) : res (list table) :=
  match tget ct "modes" with
  | None => Ok []
  | Some v => l <- as_array v ;; mapM as_table l
  end.
(** mod.rs:294-299; [alias[0]] of a value that is not an array panics *)
Definition alias_of (v : value) : res (string * string) :=
  l <- as_array v ;;
  v0 <- get l 0 ;; a <- as_str v0 ;;
  v1 <- get l 1 ;; b <- as_str v1 ;; Ok (a, b).
Definition aliases_of (ct : table) : res (list (string * string)) :=
  match tget ct "model_aliases" with
  | None => Ok []
  | Some v => l <- as_array v ;; mapM alias_of l
  end.
(** mod.rs:277-311: the cameras of one declaration *)
Definition declared (ct : table) : res (list camera) :=
  modes <- modes_of ct ;;
  let cammodes := ct :: modes in
  new <- camera_new ;;
  cam <- update_from_toml new ct ;;
  aliases <- aliases_of ct ;;
  let camnames := (c_model cam, c_clean_model cam) :: aliases in
  cams <- mapM (fun '(model, clean_model) =>
    mapM (fun ct => mcam <- update_from_toml cam ct ;; Ok (set_clean_model clean_model (set_model model mcam)))
      cammodes) camnames ;;
  Ok (concat cams).

(** mod.rs:263-267 [RawLoader]: the cameras in the order in which they are put
    into the two maps, so that a later one takes the place of an earlier one. *)
Definition loader : Type := list camera.
(** mod.rs:270-326 [RawLoader::new], given the array of declarations *)
Definition loader_new (db : list table) : res loader := cams <- mapM declared db ;; Ok (concat cams).
(** The last element that satisfies [f]. *)
Definition find_last {A} (f : A -> bool) (l : list A) : option A := find f (rev l).
(** [self.cameras.get] *)
Definition is_camera (make model mode : string) (c : camera) : bool :=
  String.eqb (c_make c) make && String.eqb (c_model c) model && String.eqb (c_mode c) mode.
Definition find_camera (l : loader) (make model mode : string) : option camera := find_last (is_camera make model mode) l.
(** [self.naked.get] *)
Definition find_naked (l : loader) (size : Z) : option camera :=
  find_last (fun c => (0 <? c_filesize c) && (c_filesize c =? size)) l.
(** mod.rs:408-413 [check_supported_with_everything] *)
Definition check_supported_with_everything (l : loader) (make model mode : string) : res camera :=
  match find_camera l make model mode with
  | Some c => Ok c
  | None => Err "Couldn't find camera"
  end.
