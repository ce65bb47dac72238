(** Model of the image rotation of src/decoders/raf.rs (Fuji RAF). *)
From Coq Require Import String ZArith List Bool.
From Verif Require Import Base.
Import ListNotations.
Local Open Scope Z_scope.

Section Raf.
Context {M : Mode}.

(** raf.rs:108-122: the rotation of the cameras with the hint
    "fuji_rotation_alt" *)
Definition rotate_alt (src : list Z) (width x y cropwidth cropheight : Z) : res (Z * Z * list Z) :=
  let rotatedwidth := cropheight + cropwidth / 2 in
  rotatedheight <- usub rotatedwidth 1 ;;
  out <- rfold (fun row out =>
    inb <- slice_from src ((row + y) * width + x) ;;
    rfold (fun col out =>
      a <- usub (cropheight + 1) row ;;
      out_row <- usub rotatedwidth (a + Z.shiftr col 1) ;;
      let out_col := Z.shiftr (col + 1) 1 + row in
      v <- get inb col ;;
      upd out (out_row * rotatedwidth + out_col) v) (zrange 0 cropwidth) out)
    (zrange 0 cropheight) (zeros (rotatedwidth * rotatedheight)) ;;
  Ok (rotatedwidth, rotatedheight, out).

(** raf.rs:123-138: the rotation of the cameras with the hint "fuji_rotation" *)
Definition rotate_normal (src : list Z) (width x y cropwidth cropheight : Z) : res (Z * Z * list Z) :=
  let rotatedwidth := cropwidth + cropheight / 2 in
  rotatedheight <- usub rotatedwidth 1 ;;
  out <- rfold (fun row out =>
    inb <- slice_from src ((row + y) * width + x) ;;
    rfold (fun col out =>
      a <- usub cropwidth 1 ;;
      b <- usub a col ;;
      let out_row := b + Z.shiftr row 1 in
      let out_col := Z.shiftr (row + 1) 1 + col in
      v <- get inb col ;;
      upd out (out_row * rotatedwidth + out_col) v) (zrange 0 cropwidth) out)
    (zrange 0 cropheight) (zeros (rotatedwidth * rotatedheight)) ;;
  Ok (rotatedwidth, rotatedheight, out).

(** raf.rs:102-139 [rotate_image].  [crops] are the camera's (top, right, bottom,
    left), [alt] tells whether it has the hint "fuji_rotation_alt". *)
Definition rotate_image (src : list Z) (alt : bool) (crops : Z * Z * Z * Z) (width height : Z)
  : res (Z * Z * list Z) :=
  let '(c0, c1, c2, c3) := crops in
  let x := c3 in
  let y := c0 in
  w1 <- usub width c1 ;; cropwidth <- usub w1 x ;;
  h1 <- usub height c2 ;; cropheight <- usub h1 y ;;
  if alt then rotate_alt src width x y cropwidth cropheight
  else rotate_normal src width x y cropwidth cropheight.
End Raf.
