(** Model of the picture assembly of src/decoders/cr2.rs (Canon CR2). *)
From Coq Require Import String ZArith List Bool.
From Verif Require Import Base Lookup Mos.
Import ListNotations.
Local Open Scope Z_scope.

Section Cr2.
Context {M : Mode}.

(** cr2.rs:91-95: the widths of the stripes, from the values of the tag
    Cr2StripeWidths: the number of stripes but one, their width, the width of
    the last one. *)
Definition field_widths (n width last : Z) : list Z := repeat width (Z.to_nat n) ++ [last].

(** cr2.rs:106-115: one row pair of a stripe.  State: (inpos, out). *)
Definition stripe_pair (ljpegout : list Z) (ljpegwidth width fieldstart row : Z)
    (col : Z) (st : Z * list Z) : res (Z * list Z) :=
  let '(inpos, out) := st in
  let outpos := row * width + fieldstart + col in
  s <- slice ljpegout inpos (inpos + 3) ;;
  out <- copy_at out outpos (outpos + 3) s ;;
  let outpos := (row + 1) * width + fieldstart + col in
  let inpos2 := inpos + ljpegwidth in
  s <- slice ljpegout inpos2 (inpos2 + 3) ;;
  out <- copy_at out outpos (outpos + 3) s ;;
  let inpos := inpos + 3 in
  if ljpegwidth =? 0 then Panic else
  Ok (if inpos mod ljpegwidth =? 0 then inpos + ljpegwidth else inpos, out).

(** cr2.rs:97-119: stripes of pictures with vertical subsampling, two lines at
    a time.  State: (fieldstart, inpos, out). *)
Definition stripes_v2 (ljpegout : list Z) (ljpegwidth width height : Z) (fieldwidths : list Z)
  : res (list Z) :=
  let out := zeros (width * height) in
  let nfields := zlen fieldwidths in
  fieldwidth <- get fieldwidths 0 ;;
  '(_, _, out) <- rfold (fun _ '(fieldstart, inpos, out) =>
      '(inpos, out) <- rfold (fun row '(inpos, out) =>
          rfold (stripe_pair ljpegout ljpegwidth width fieldstart row)
                (zrange_step 0 fieldwidth 3) (inpos, out))
        (zrange_step 0 height 2) (inpos, out) ;;
      Ok (fieldstart + fieldwidth, inpos, out))
    (zrange 0 nfields) (0, 0, out) ;;
  Ok out.

(** cr2.rs:127-131: one line of a stripe *)
Definition stripe_line (ljpegout : list Z) (width fieldstart fieldpos fieldwidth row : Z)
    (out : list Z) : res (list Z) :=
  let outpos := row * width + fieldstart in
  let inpos := fieldpos + row * fieldwidth in
  _ <- slice out outpos (outpos + fieldwidth) ;;
  inb <- slice ljpegout inpos (inpos + fieldwidth) ;;
  copy_at out outpos (outpos + fieldwidth) inb.

(** cr2.rs:120-136: stripes of the other pictures.  [sh] is the horizontal
    subsampling, 1 or more.  State: (fieldstart, fieldpos, out). *)
Definition stripes_v1 (ljpegout : list Z) (width height sh cpp : Z) (fieldwidths : list Z)
  : res (list Z) :=
  let out := zeros (width * height) in
  '(_, _, out) <- rfold (fun fieldwidth '(fieldstart, fieldpos, out) =>
      if sh =? 0 then Panic else
      let fieldwidth := fieldwidth / sh * cpp in
      out <- rfold (stripe_line ljpegout width fieldstart fieldpos fieldwidth) (zrange 0 height) out ;;
      Ok (fieldstart + fieldwidth, fieldpos + fieldwidth * height, out))
    fieldwidths (0, 0, out) ;;
  Ok out.

(** cr2.rs:61-64: apply the linearisation table to every sample *)
Fixpoint linearize (tbl : ltable) (image : list Z) (random : Z) : res (list Z) :=
  match image with
  | [] => Ok []
  | v :: t => '(p, random) <- dither tbl v random ;; r <- linearize tbl t random ;; Ok (p :: r)
  end.

(** cr2.rs:183-195: one pixel of [convert_to_rgb]; a last group of fewer than
    three samples panics. *)
Definition yuv_to_rgb (c1 c2 c3 yoffset : Z) (pix : list Z) : res (list Z) :=
  p0 <- get pix 0 ;; y <- i32sub p0 yoffset ;;
  p1 <- get pix 1 ;; cb <- i32sub p1 16383 ;;
  p2 <- get pix 2 ;; cr <- i32sub p2 16383 ;;
  s <- i32add y cr ;; r <- i32mul c1 s ;;
  t1 <- i32mul (-778) cb ;; t2 <- i32sub t1 (as_i32 (Z.shiftl cr 11)) ;;
  s <- i32add y (Z.shiftr t2 12) ;; g <- i32mul c2 s ;;
  s <- i32add y cb ;; b <- i32mul c3 s ;;
  r' <- clampbits (Z.shiftr r 8) 16 ;;
  g' <- clampbits (Z.shiftr g 8) 16 ;;
  b' <- clampbits (Z.shiftr b 8) 16 ;;
  Ok [as_u16 r'; as_u16 g'; as_u16 b'].
End Cr2.
