(** Model of the conversion to RGB: src/imageops/mod.rs [decoder] and the public
    functions of src/decoders/image.rs that use it. *)
From Coq Require Import String ZArith List Bool.
From Verif Require Import Base Num Threads Cfa Transform Image Gofloat Demosaic Colors.
Import ListNotations.
Local Open Scope Z_scope.

Section Pipeline.
Context {M : Mode} {A : Type} {N : Num A}.

(** imageops/mod.rs:97-129 [decoder] (the printing of timings is left out) *)
Definition op_decoder (img : rawimage A) (maxwidth maxheight : Z) (linear : bool) : res (opbuf A) :=
  let '(transpose, _, _) := to_flips (i_orientation img) in
  let '(maxwidth, maxheight) := if transpose : bool then (maxheight, maxwidth) else (maxwidth, maxheight) in
  input <- gofloat img ;;
  channel4 <- demosaic_and_scale img input maxwidth maxheight ;;
  channel4 <- level_and_balance img channel4 ;;
  channel3 <- camera_to_lab img channel4 ;;
  channel3 <- base_curve channel3 ;;
  channel3 <- lab_to_rec709 channel3 ;;
  channel3 <- (if linear then Ok channel3 else gamma channel3) ;;
  orient n0 channel3 (i_orientation img).
(** imageops/mod.rs:131-137 and image.rs:229-237 [to_rgb], 264-272
    [to_linear_rgb] *)
Definition to_rgb (img : rawimage A) (maxwidth maxheight : Z) : res (opbuf A) := op_decoder img maxwidth maxheight false.
Definition to_linear_rgb (img : rawimage A) (maxwidth maxheight : Z) : res (opbuf A) := op_decoder img maxwidth maxheight true.
(** image.rs:250: one byte *)
Definition srgb_byte (v : A) : Z := to_u8 (n_min (n_max (n_mul v (n_of 255)) n0) (n_of 255)).
(** image.rs:246-260 [to_srgb]: width, height and bytes.  [zip] stops at the
    shorter of the two. *)
Definition to_srgb (img : rawimage A) (maxwidth maxheight : Z) : res (Z * Z * list Z) :=
  buf <- to_rgb img maxwidth maxheight ;;
  let n := Z.to_nat (owidth buf * oheight buf * 3) in
  let bs := map srgb_byte (firstn n (odata buf)) in
  Ok (owidth buf, oheight buf, bs ++ repeat 0 (n - length bs)).
End Pipeline.
