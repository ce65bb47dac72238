(** Specification of image orientation, after the EXIF standard: the tag says
    on which visual side the 0th stored row and the 0th stored column lie. *)
From Coq Require Import ZArith List Bool.
From Verif Require Import Transform.
Import ListNotations.
Local Open Scope Z_scope.

(** A well-formed pixel buffer: positive sizes, one sample per place. *)
Definition well_formed {A} (b : opbuf A) : Prop :=
  0 < owidth b /\ 0 < oheight b /\ 0 < ocolors b /\
  Z.of_nat (length (odata b)) = owidth b * oheight b * ocolors b /\
  owidth b * oheight b * ocolors b < 2 ^ 63.

(** Sample [k] of the pixel at row [y], column [x]. *)
Definition sample_at {A} (b : opbuf A) (y x k : Z) : option A :=
  nth_error (odata b) (Z.to_nat ((y * owidth b + x) * ocolors b + k)).

Inductive side := Top | Bottom | Left | Right.

(** EXIF 2.3, tag 274: (side of the 0th row, side of the 0th column). *)
Definition exif (tag : Z) : option (side * side) :=
  match tag with
  | 1 => Some (Top, Left)
  | 2 => Some (Top, Right)
  | 3 => Some (Bottom, Right)
  | 4 => Some (Bottom, Left)
  | 5 => Some (Left, Top)
  | 6 => Some (Right, Top)
  | 7 => Some (Right, Bottom)
  | 8 => Some (Left, Bottom)
  | _ => None
  end.

(** The line number [n] counted from side [s] of a [w] x [h] picture is this
    row (inl) or column (inr) of the picture. *)
Definition from_side (s : side) (n w h : Z) : Z + Z :=
  match s with
  | Top => inl n
  | Bottom => inl (h - 1 - n)
  | Left => inr n
  | Right => inr (w - 1 - n)
  end.

(** Where stored row [r], column [c] is seen, in a picture of [w] x [h]. *)
Definition seen_at (sides : side * side) (r c w h : Z) : option (Z * Z) :=
  match from_side (fst sides) r w h, from_side (snd sides) c w h with
  | inl y, inr x => Some (y, x)
  | inr x, inl y => Some (y, x)
  | _, _ => None
  end.

(** Rows run along the picture's columns: the picture is as high as the stored
    image is wide. *)
Definition turned (sides : side * side) : bool :=
  match fst sides with Left | Right => true | _ => false end.

(** [out] is [img] shown with row 0 and column 0 on the given sides. *)
Definition shown {A} (sides : side * side) (img out : opbuf A) : Prop :=
  well_formed out /\ ocolors out = ocolors img /\
  (if turned sides then owidth out = oheight img /\ oheight out = owidth img
   else owidth out = owidth img /\ oheight out = oheight img) /\
  forall r c, 0 <= r < oheight img -> 0 <= c < owidth img ->
    exists y x, seen_at sides r c (owidth out) (oheight out) = Some (y, x) /\
      0 <= y < oheight out /\ 0 <= x < owidth out /\
      forall k, 0 <= k < ocolors img -> sample_at out y x k = sample_at img r c k.

(** The same transformations as linear maps of the plane: the images of the
    stored directions "one column right" and "one row down" as (dx, dy). *)
Definition matrix (o : orientation) : (Z * Z) * (Z * Z) :=
  match o with
  | Normal | Unknown => ((1, 0), (0, 1))
  | HorizontalFlip => ((-1, 0), (0, 1))
  | Rotate180 => ((-1, 0), (0, -1))
  | VerticalFlip => ((1, 0), (0, -1))
  | Transpose => ((0, 1), (1, 0))
  | Rotate90 => ((0, 1), (-1, 0))
  | Transverse => ((0, -1), (-1, 0))
  | Rotate270 => ((0, -1), (1, 0))
  end.
Definition apply_matrix (m : (Z * Z) * (Z * Z)) (v : Z * Z) : Z * Z :=
  let '((a, b), (c, d)) := m in let '(x, y) := v in (a * x + c * y, b * x + d * y).
(** [m2] after [m1] *)
Definition after (m2 m1 : (Z * Z) * (Z * Z)) : (Z * Z) * (Z * Z) :=
  (apply_matrix m2 (fst m1), apply_matrix m2 (snd m1)).
