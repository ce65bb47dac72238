(** Model of the pixel buffer of src/imageops/mod.rs, of src/imageops/transform.rs
    and of the orientation type of src/decoders/mod.rs.  Moving pixels does not
    look at them: the samples are of any type [A], [z] is the sample 0.0. *)
From Coq Require Import ZArith List Bool.
From Verif Require Import Base Threads.
Import ListNotations.
Local Open Scope Z_scope.

(** imageops/mod.rs:17-23 [OpBuffer] *)
Record opbuf (A : Type) := mkop { owidth : Z; oheight : Z; ocolors : Z; odata : list A }.
Arguments mkop {A}.
Arguments owidth {A}.
Arguments oheight {A}.
Arguments ocolors {A}.
Arguments odata {A}.

Section Op.
Context {M : Mode} {A : Type} (z : A).

(** imageops/mod.rs:26-33 [OpBuffer::new] *)
Definition op_new (width height colors : Z) : opbuf A :=
  mkop width height colors (repeat z (Z.to_nat (width * height * colors))).

(** [out.data.par_chunks_mut(n).enumerate().for_each(|(row, line)| ..)]: rows
    in order (see Threads.v for schedules); [par_chunks_mut(0)] panics. *)
Definition par_lines (n : Z) (data : list A) (closure : list A -> Z -> res (list A)) : res (list A) :=
  if n =? 0 then Panic else
  lines <- mapM (fun '(row, line) => closure line row) (enumerate (chunks (Z.to_nat n) data)) ;;
  Ok (concat lines).

(** transform.rs:8-20 [flip_horizontal] *)
Definition flip_horizontal (buf : opbuf A) : res (opbuf A) :=
  let out := op_new (owidth buf) (oheight buf) (ocolors buf) in
  d <- par_lines (owidth out * ocolors out) (odata out) (fun line row =>
    let offset := owidth buf * row * ocolors buf in
    rfold (fun col line =>
      rfold (fun c line =>
        w1 <- usub (owidth buf) 1 ;; src <- usub w1 col ;;
        v <- get (odata buf) (offset + src * ocolors buf + c) ;;
        upd line (col * ocolors buf + c) v)
      (zrange 0 (ocolors buf)) line)
    (zrange 0 (owidth buf)) line) ;;
  Ok (mkop (owidth out) (oheight out) (ocolors out) d).

(** transform.rs:23-33 [flip_vertical] *)
Definition flip_vertical (buf : opbuf A) : res (opbuf A) :=
  let out := op_new (owidth buf) (oheight buf) (ocolors buf) in
  d <- par_lines (owidth out * ocolors out) (odata out) (fun line row =>
    h1 <- usub (oheight buf) 1 ;; src <- usub h1 row ;;
    let offset := src * owidth buf * ocolors buf in
    rfold (fun col line =>
      v <- get (odata buf) (offset + col) ;; upd line col v)
    (zrange 0 (owidth buf * ocolors buf)) line) ;;
  Ok (mkop (owidth out) (oheight out) (ocolors out) d).

(** transform.rs:36-50 [transpose] *)
Definition transpose (buf : opbuf A) : res (opbuf A) :=
  let out := op_new (oheight buf) (owidth buf) (ocolors buf) in
  d <- par_lines (owidth out * ocolors out) (odata out) (fun line row =>
    rfold (fun col line =>
      let target := col * ocolors buf in
      let source := (col * owidth buf + row) * ocolors buf in
      rfold (fun c line =>
        v <- get (odata buf) (source + c) ;; upd line (target + c) v)
      (zrange 0 (ocolors buf)) line)
    (zrange 0 (oheight buf)) line) ;;
  Ok (mkop (owidth out) (oheight out) (ocolors out) d).

(** mod.rs:196-207 [Orientation] *)
Inductive orientation :=
| Normal | HorizontalFlip | Rotate180 | VerticalFlip
| Transpose | Rotate90 | Transverse | Rotate270 | Unknown.

(** mod.rs:212-224 [from_u16] *)
Definition from_u16 (o : Z) : orientation :=
  if o =? 1 then Normal
  else if o =? 2 then HorizontalFlip
  else if o =? 3 then Rotate180
  else if o =? 4 then VerticalFlip
  else if o =? 5 then Transpose
  else if o =? 6 then Rotate90
  else if o =? 7 then Transverse
  else if o =? 8 then Rotate270
  else Unknown.

(** mod.rs:238-250 [to_flips]: (transpose, horizontal, vertical) *)
Definition to_flips (o : orientation) : bool * bool * bool :=
  match o with
  | Normal | Unknown => (false, false, false)
  | VerticalFlip => (false, false, true)
  | HorizontalFlip => (false, true, false)
  | Rotate180 => (false, true, true)
  | Transpose => (true, false, false)
  | Rotate270 => (true, false, true)
  | Rotate90 => (true, true, false)
  | Transverse => (true, true, true)
  end.

(** transform.rs:52-63 [rotate_buffer] *)
Definition rotate_buffer (buf : opbuf A) (o : orientation) : res (opbuf A) :=
  match to_flips o with
  | (false, false, false) => Ok buf
  | (false, false, true) => flip_vertical buf
  | (false, true, false) => flip_horizontal buf
  | (false, true, true) => b <- flip_vertical buf ;; flip_horizontal b
  | (true, false, false) => transpose buf
  | (true, false, true) => b <- transpose buf ;; flip_vertical b
  | (true, true, false) => b <- transpose buf ;; flip_horizontal b
  | (true, true, true) => b <- transpose buf ;; b' <- flip_horizontal b ;; flip_vertical b'
  end.

(** imageops/mod.rs:117-122: the orientation step at the end of the pipeline. *)
Definition orient (buf : opbuf A) (o : orientation) : res (opbuf A) :=
  match o with
  | Normal | Unknown => Ok buf
  | _ => rotate_buffer buf o
  end.
End Op.
