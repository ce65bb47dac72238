(** Specification vocabulary: rectangular images stored row by row. *)
From Coq Require Import ZArith List.
Import ListNotations.
Local Open Scope Z_scope.

(** [img] holds [w] x [h] samples and the sample of row [r] and column [c] is
    [pix r c]. *)
Definition is_image (img : list Z) (w h : Z) (pix : Z -> Z -> Z) : Prop :=
  Z.of_nat (length img) = w * h /\
  forall r c, 0 <= r < h -> 0 <= c < w ->
    nth (Z.to_nat (r * w + c)) img 0 = pix r c.
