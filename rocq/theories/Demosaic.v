(** Model of src/imageops/demosaic.rs. *)
From Coq Require Import String ZArith List Bool.
From Verif Require Import Base Num Threads Cfa Transform Image Gofloat.
Import ListNotations.
Local Open Scope Z_scope.

Section Demosaic.
Context {M : Mode} {A : Type} {N : Num A}.

(** demosaic.rs:48-53: the colours that are known *)
Definition known_line (cfa : CFA) (buf : opbuf A) (line : list A) (row : Z) : res (list A) :=
  src <- slice_from (odata buf) (owidth buf * row) ;;
  zip_chunks 4 1 line src (fun col o i =>
    color <- color_at cfa row col ;; v <- get i 0 ;; upd o color v).

(** demosaic.rs:61-73: sums and numbers of the neighbours of each other colour.
    The counts are u32 and at most 9. *)
Definition neighbours (cfa : CFA) (buf : opbuf A) (row col color : Z) : res (list A * list Z) :=
  rfold (fun y st =>
    rfold (fun x '(sums, counts) =>
      c <- color_at cfa y x ;;
      if negb (c =? color) then
        s <- get sums c ;;
        v <- get (odata buf) (y * owidth buf + x) ;;
        sums <- upd sums c (n_add s v) ;;
        n <- get counts c ;;
        counts <- upd counts c (n + 1) ;;
        Ok (sums, counts)
      else Ok (sums, counts))
      (zrange (Z.max 0 (col - 1)) (Z.min (owidth buf) (col + 2))) st)
    (zrange (Z.max 0 (row - 1)) (Z.min (oheight buf) (row + 2)))
    (repeat n0 4, zeros 4).

(** demosaic.rs:57-80: the other colours of a line *)
Definition other_line (cfa : CFA) (buf : opbuf A) (line : list A) (row : Z) : res (list A) :=
  rfold (fun col line =>
    color <- color_at cfa row col ;;
    '(sums, counts) <- neighbours cfa buf row col color ;;
    rfold (fun c line =>
      n <- get counts c ;;
      if negb (c =? color) && (0 <? n) then
        s <- get sums c ;; upd line (col * 4 + c) (n_div s (n_of n))
      else Ok line) (zrange 0 4) line)
    (zrange 0 (owidth buf)) line.

(** demosaic.rs:43-84 [full] *)
Definition full (img : rawimage A) (buf : opbuf A) : res (opbuf A) :=
  let out := op_new n0 (owidth buf) (oheight buf) 4 in
  cfa <- img_cropped_cfa img ;;
  d <- par_lines (owidth buf * 4) (odata out) (known_line cfa buf) ;;
  d <- par_lines (owidth buf * 4) d (other_line cfa buf) ;;
  Ok (mkop (owidth buf) (oheight buf) 4 d).

(** demosaic.rs:86-96 [calc_skips] *)
Definition calc_skips (idx idxmax : Z) (skip : A) : Z * Z * A * A :=
  let from := n_mul (n_of idx) skip in
  let fromback := n_floor from in
  let fromfactor := n_sub n1 (fract (n_sub from fromback)) in
  let to := n_mul (n_of (idx + 1)) skip in
  let toforward := n_min (n_of idxmax) (n_ceil to) in
  let tofactor := fract (n_sub toforward to) in
  (to_usize fromback, to_usize toforward, fromfactor, tofactor).

(** demosaic.rs:112-115 and 148-151 *)
Definition edge (i from to : Z) (first last : A) : A :=
  if i =? from then first else if i =? to then last else n1.

(** demosaic.rs:98-134 [scaled] *)
Definition scaled_line (cfa : CFA) (buf : opbuf A) (nwidth : Z) (rowskip colskip : A) (line : list A) (row : Z) : res (list A) :=
  rfold (fun col line =>
    let '(fromrow, torow, top, bottom) := calc_skips row (oheight buf) rowskip in
    '(sums, counts) <- rfold (fun y st =>
        let '(fromcol, tocol, leftf, rightf) := calc_skips col (owidth buf) colskip in
        rfold (fun x '(sums, counts) =>
          let factor := n_mul (edge y fromrow torow top bottom) (edge x fromcol tocol leftf rightf) in
          c <- color_at cfa y x ;;
          s <- get sums c ;;
          v <- get (odata buf) (y * owidth buf + x) ;;
          sums <- upd sums c (n_add s (n_mul v factor)) ;;
          n <- get counts c ;;
          counts <- upd counts c (n_add n factor) ;;
          Ok (sums, counts)) (zrange fromcol tocol) st)
      (zrange fromrow torow) (repeat n0 4, repeat n0 4) ;;
    rfold (fun c line =>
      n <- get counts c ;;
      if n_lt n0 n then s <- get sums c ;; upd line (col * 4 + c) (n_div s n) else Ok line)
      (zrange 0 4) line)
    (zrange 0 nwidth) line.
Definition scaled (img : rawimage A) (buf : opbuf A) (nwidth nheight : Z) : res (opbuf A) :=
  let out := op_new n0 nwidth nheight 4 in
  cfa <- img_cropped_cfa img ;;
  let rowskip := n_div (n_of (owidth buf)) (n_of nwidth) in
  let colskip := n_div (n_of (oheight buf)) (n_of nheight) in
  d <- par_lines (nwidth * 4) (odata out) (scaled_line cfa buf nwidth rowskip colskip) ;;
  Ok (mkop nwidth nheight 4 d).

(** demosaic.rs:136-169 [scale_down] *)
Definition scale_line (buf : opbuf A) (nwidth : Z) (rowskip colskip : A) (line : list A) (row : Z) : res (list A) :=
  rfold (fun col line =>
    let '(fromrow, torow, top, bottom) := calc_skips row (oheight buf) rowskip in
    '(sums, counts) <- rfold (fun y st =>
        let '(fromcol, tocol, leftf, rightf) := calc_skips col (owidth buf) colskip in
        rfold (fun x st =>
          let factor := n_mul (edge y fromrow torow top bottom) (edge x fromcol tocol leftf rightf) in
          rfold (fun c '(sums, counts) =>
            s <- get sums c ;;
            v <- get (odata buf) ((y * owidth buf + x) * ocolors buf + c) ;;
            sums <- upd sums c (n_add s (n_mul v factor)) ;;
            n <- get counts c ;;
            counts <- upd counts c (n_add n factor) ;;
            Ok (sums, counts)) (zrange 0 (ocolors buf)) st) (zrange fromcol tocol) st)
      (zrange fromrow torow) (repeat n0 4, repeat n0 4) ;;
    rfold (fun c line =>
      n <- get counts c ;;
      if n_lt n0 n then s <- get sums c ;; upd line (col * ocolors buf + c) (n_div s n) else Ok line)
      (zrange 0 (ocolors buf)) line)
    (zrange 0 nwidth) line.
Definition scale_down (buf : opbuf A) (nwidth nheight : Z) : res (opbuf A) :=
  let out := op_new n0 nwidth nheight (ocolors buf) in
  let rowskip := n_div (n_of (owidth buf)) (n_of nwidth) in
  let colskip := n_div (n_of (oheight buf)) (n_of nheight) in
  d <- par_lines (nwidth * ocolors buf) (odata out) (scale_line buf nwidth rowskip colskip) ;;
  Ok (mkop nwidth nheight (ocolors buf) d).

(** demosaic.rs:6-17: the factor and the new size *)
Definition new_size (width height maxwidth maxheight : Z) : A * Z * Z :=
  if (maxwidth =? 0) || (maxheight =? 0) then (n0, width, height)
  else
    let xscale := n_div (n_of width) (n_of maxwidth) in
    let yscale := n_div (n_of height) (n_of maxheight) in
    if n_lt xscale yscale
    then (yscale, to_usize (n_div (n_of width) yscale), maxheight)
    else (xscale, maxwidth, to_usize (n_div (n_of height) xscale)).
(** demosaic.rs:19-25 *)
Definition min_scale (cfa_width : Z) : A :=
  n_of (if cfa_width =? 6 then 3 else if cfa_width =? 12 then 12 else 2).
(** demosaic.rs:5-41 [demosaic_and_scale] *)
Definition demosaic_and_scale (img : rawimage A) (buf : opbuf A) (maxwidth maxheight : Z) : res (opbuf A) :=
  let '(scale, nwidth, nheight) := new_size (owidth buf) (oheight buf) maxwidth maxheight in
  if n_lt scale (min_scale (cwidth (i_cfa img))) || negb (ocolors buf =? 1) then
    out <- (if ocolors buf =? 4 then Ok buf else full img buf) ;;
    if n_lt n1 scale then scale_down out nwidth nheight else Ok out
  else scaled img buf nwidth nheight.
End Demosaic.
