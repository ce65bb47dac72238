(** Model of src/imageops/gofloat.rs: cropping and conversion to floating
    point. *)
From Coq Require Import String ZArith List Bool.
From Verif Require Import Base Num Threads Cfa Transform Image.
Import ListNotations.
Local Open Scope Z_scope.

(** [for (o, i) in line.chunks_mut(n).zip(src.chunks(m)).enumerate()]: the
    pieces of [line] that have a partner are changed by [f].  [k] counts. *)
Fixpoint zip_pieces {A B} (f : Z -> list A -> list B -> res (list A)) (k : Z) (os : list (list A)) (is : list (list B))
  : res (list A) :=
  match os, is with
  | o :: os', i :: is' => o' <- f k o i ;; rest <- zip_pieces f (k + 1) os' is' ;; Ok (o' ++ rest)
  | _, _ => Ok (concat os)
  end.
Definition zip_chunks {A B} (n m : nat) (line : list A) (src : list B) (f : Z -> list A -> list B -> res (list A))
  : res (list A) := zip_pieces f 0 (chunks n line) (chunks m src).

Section Gofloat.
Context {M : Mode} {A : Type} {N : Num A}.

(** gofloat.rs:4-44 [convert] *)
Definition gofloat (img : rawimage A) : res (opbuf A) :=
  w <- usub (i_width img) (e1 (i_crops img)) ;; width <- usub w (e3 (i_crops img)) ;;
  h <- usub (i_height img) (e0 (i_crops img)) ;; height <- usub h (e2 (i_crops img)) ;;
  let x := e3 (i_crops img) in
  let y := e0 (i_crops img) in
  if is_monochrome img then
    let out := op_new n0 width height 4 in
    d <- par_lines (width * 4) (odata out) (fun line row =>
      src <- slice_from (i_data img) (i_width img * (row + y) + x) ;;
      zip_chunks 4 1 line src (fun _ o i =>
        v <- get i 0 ;; let v := n_of v in
        o <- upd o 0 v ;; o <- upd o 1 v ;; o <- upd o 2 v ;; upd o 3 n0)) ;;
    Ok (mkop width height 4 d)
  else if i_cpp img =? 3 then
    let out := op_new n0 width height 4 in
    d <- par_lines (width * 4) (odata out) (fun line row =>
      src <- slice_from (i_data img) (i_width img * (row + y) + x) ;;
      zip_chunks 4 3 line src (fun _ o i =>
        a <- get i 0 ;; o <- upd o 0 (n_of a) ;;
        b <- get i 1 ;; o <- upd o 1 (n_of b) ;;
        c <- get i 2 ;; o <- upd o 2 (n_of c) ;; upd o 3 n0)) ;;
    Ok (mkop width height 4 d)
  else
    let out := op_new n0 width height (i_cpp img) in
    d <- par_lines (width * i_cpp img) (odata out) (fun line row =>
      src <- slice_from (i_data img) (i_width img * (row + y) + x) ;;
      zip_chunks 1 1 line src (fun _ o i => v <- get i 0 ;; upd o 0 (n_of v))) ;;
    Ok (mkop width height (i_cpp img) d).
End Gofloat.
