(** Specification vocabulary for the conversion of decoded images to RGB. *)
From Coq Require Import String ZArith List Bool Reals.
From Flocq Require Import Core BinarySingleNaN.
From Verif Require Import Num F32 Cfa Transform Image Spec_Cfa Spec_Orient.
Import ListNotations.
Local Open Scope Z_scope.

(** A decoded image as documented (image.rs:8-39): positive sizes, one 16-bit
    sample per place, and room in memory for four numbers per pixel. *)
Definition raw_ok {A} (img : rawimage A) : Prop :=
  0 < i_width img /\ 0 < i_height img /\ 0 < i_cpp img /\
  Z.of_nat (length (i_data img)) = i_width img * i_height img * i_cpp img /\
  i_width img * i_height img * (i_cpp img + 4) < 2 ^ 61 /\
  Forall (fun v => 0 <= v < 65536) (i_data img).

(** The crops are top, right, bottom, left; they leave something. *)
Definition top {A} (img : rawimage A) := e0 (i_crops img).
Definition right {A} (img : rawimage A) := e1 (i_crops img).
Definition bottom {A} (img : rawimage A) := e2 (i_crops img).
Definition left {A} (img : rawimage A) := e3 (i_crops img).
Definition crop_ok {A} (img : rawimage A) : Prop :=
  0 <= top img /\ 0 <= right img /\ 0 <= bottom img /\ 0 <= left img /\
  left img + right img < i_width img /\ top img + bottom img < i_height img.

(** Component [k] of the pixel in row [y], column [x] of the decoded image. *)
Definition raw_at {A} (img : rawimage A) (y x k : Z) : option Z :=
  nth_error (i_data img) (Z.to_nat ((y * i_width img + x) * i_cpp img + k)).

(** [x] is the number [r]. *)
Definition is_number (x : f32) (r : R) : Prop := is_finite x = true /\ B2R x = r.

(** A place of the cropped picture. *)
Definition inside {A} (img : rawimage A) (p : Z * Z) : Prop :=
  0 <= fst p < i_height img - top img - bottom img /\ 0 <= snd p < i_width img - left img - right img.
(** The sensor's value at a place of the cropped picture. *)
Definition measured {A} (img : rawimage A) (p : Z * Z) : option Z := raw_at img (fst p + top img) (snd p + left img) 0.
(** Two places that touch, or the same. *)
Definition near (p q : Z * Z) : Prop := Z.abs (fst p - fst q) <= 1 /\ Z.abs (snd p - snd q) <= 1.
(** The values at some places, added up. *)
Fixpoint sum_measured {A} (img : rawimage A) (ps : list (Z * Z)) : option Z :=
  match ps with
  | [] => Some 0
  | p :: ps' => match measured img p, sum_measured img ps' with Some v, Some s => Some (v + s) | _, _ => None end
  end.
(** The single precision number nearest to [r], ties to even. *)
Definition nearest (r : R) : R := round radix2 (FLT_exp (-149) 24) ZnearestE r.

(** The colour that the sensor measures at a place of the cropped picture, [name]
    being the pattern of its filter. *)
Definition seen {A} (img : rawimage A) (name : string) (p : Z * Z) : option Z := colour name (fst p + top img) (snd p + left img).

(** Pictures for counterexamples: one value everywhere, and two pixels of three
    components. *)
Definition plain (f : CFA) (w h v : Z) : rawimage f32 :=
  mkimg "" "" "" "" w h 1 (V4 (f32_of 1) (f32_of 1) (f32_of 1) (f32_of 1)) (V4 65535 65535 65535 65535) (V4 0 0 0 0)
    (V4 (V3 (f32_of 1) (f32_of 0) (f32_of 0)) (V3 (f32_of 0) (f32_of 1) (f32_of 0)) (V3 (f32_of 0) (f32_of 0) (f32_of 1)) (V3 (f32_of 0) (f32_of 0) (f32_of 0)))
    f (V4 0 0 0 0) Normal (repeat v (Z.to_nat (w * h))).
Definition two_pixels : rawimage f32 :=
  mkimg "" "" "" "" 1 2 3 (V4 (f32_of 1) (f32_of 1) (f32_of 1) (f32_of 1)) (V4 0 0 0 0) (V4 0 0 0 0)
    (V4 (V3 (f32_of 1) (f32_of 1) (f32_of 1)) (V3 (f32_of 1) (f32_of 1) (f32_of 1)) (V3 (f32_of 1) (f32_of 1) (f32_of 1)) (V3 (f32_of 1) (f32_of 1) (f32_of 1)))
    (mkcfa "" 0 0 []) (V4 0 0 0 0) Normal [1; 2; 3; 4; 5; 6].

(** The images that decoders make: a sensor with a colour filter, a sensor
    without, or three samples per pixel. *)
Definition usual {A} (img : rawimage A) : Prop :=
  (i_cpp img = 1 /\ exists name, pattern_name name /\ cfa_new name = Base.Ok (i_cfa img)) \/
  (i_cpp img = 1 /\ cfa_is_valid (i_cfa img) = false) \/
  i_cpp img = 3.
(** Orientations that exchange width and height. *)
Definition sideways (o : orientation) : bool :=
  match o with Transpose | Rotate90 | Transverse | Rotate270 => true | _ => false end.
(** Width and height of the picture, as shown. *)
Definition shown_width {A} (img : rawimage A) : Z :=
  if sideways (i_orientation img) then i_height img - top img - bottom img else i_width img - left img - right img.
Definition shown_height {A} (img : rawimage A) : Z :=
  if sideways (i_orientation img) then i_width img - left img - right img else i_height img - top img - bottom img.
(** Bounds for the size that leave something of a picture of this size. *)
Definition room (width height maxwidth maxheight : Z) : Prop :=
  maxwidth = 0 \/ maxheight = 0 \/
  (2 <= maxwidth < 2 ^ 23 /\ 2 <= maxheight < 2 ^ 23 /\ width <= 2 ^ 22 /\ height <= 2 ^ 22 /\
   2 * height <= width * maxheight /\ 2 * width <= height * maxwidth).
