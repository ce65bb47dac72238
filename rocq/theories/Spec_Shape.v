(** Specification of the size of a decoded image (C45). *)
From Coq Require Import String ZArith List Bool.
From Verif Require Import Base F32 Ljpeg Tiff Camera Image Decoder Dec_Ljpeg Spec_Bits.
Import ListNotations.
Local Open Scope Z_scope.

(** The image has a sample of 16 bits for every component of every pixel. *)
Definition whole (img : rawimage f32) : Prop :=
  0 <= i_width img /\ 0 <= i_height img /\ 0 <= i_cpp img /\
  Z.of_nat (length (i_data img)) = i_width img * i_height img * i_cpp img /\ samples (i_data img).

(** A Canon file cuts its picture in vertical stripes: the directory of the
    picture has the tag with their widths, and it is not zero stripes. *)
Definition has_stripes (t : ifd) : Prop := exists raw off en n,
  cr2_raw t = Ok (raw, off) /\ find_entry raw T_Cr2StripeWidths = Some en /\ get_u32 en 0 = Ok n /\ n <> 0.
(** It gives the width of its picture. *)
Definition has_size (t : ifd) : Prop := exists raw off, cr2_raw t = Ok (raw, off) /\ has_entry raw T_ImageWidth = true.
(** Its camera stores two lines of the picture in one of the file. *)
Definition double_lines (l : loader) (t : ifd) : Prop := exists cam, check_supported l t = Ok cam /\ find_hint cam "double_line" = true.
(** Such a line, as its lossless JPEG says, has an even number of samples. *)
Definition even_lines {M : Mode} (buf : list Z) (t : ifd) : Prop := exists raw off src lj,
  cr2_raw t = Ok (raw, off) /\ slice_from buf off = Ok src /\ ljpeg_new src = Ok lj /\ Z.Even (lj_width lj).
(** The width and the height it gives are those of its lossless JPEG. *)
Definition size_agrees {M : Mode} (buf : list Z) (t : ifd) : Prop := exists raw off src lj w h,
  cr2_raw t = Ok (raw, off) /\ slice_from buf off = Ok src /\ ljpeg_new src = Ok lj /\
  tag_usize raw T_ImageWidth = Ok w /\ tag_usize raw T_ImageLength = Ok h /\ 3 * w * h = lj_width lj * lj_height lj.
(** A line of its lossless JPEG is a whole number of pixels of three samples. *)
Definition pixel_lines {M : Mode} (buf : list Z) (t : ifd) : Prop := exists raw off src lj,
  cr2_raw t = Ok (raw, off) /\ slice_from buf off = Ok src /\ ljpeg_new src = Ok lj /\ lj_width lj mod 3 = 0.
(** Canon files that are like those of the cameras: a picture of one component
    has stripes, no double lines or even ones; one of three gives its size and
    has stripes or the size of its lossless JPEG, or gives no size and has
    whole pixels. *)
Definition ordinary {M : Mode} (l : loader) (buf : list Z) (t : ifd) (img : rawimage f32) : Prop :=
  i_cpp img = 1 /\ (has_stripes t \/ ~ double_lines l t \/ even_lines buf t) \/
  i_cpp img = 3 /\ (has_size t /\ (has_stripes t \/ size_agrees buf t) \/ ~ has_size t /\ pixel_lines buf t).
(** A decoding routine that succeeds gives [n] samples of 16 bits (C07). *)
Definition fills (r : res (list Z)) (n : Z) : Prop := forall l, r = Ok l -> Z.of_nat (length l) = n /\ samples l.
