(** Specification vocabulary: lists of points for a curve. *)
From Coq Require Import ZArith List Reals.
Import ListNotations.

(** Every element is below all that follow it. *)
Definition ascending {A} (below : A -> A -> Prop) (l : list A) : Prop :=
  forall i j a b, (i < j)%nat -> nth_error l i = Some a -> nth_error l j = Some b -> below a b.
(** As many values as points, at least two of them, and few enough to be
    counted. *)
Definition points {A} (xs ys : list A) : Prop :=
  length ys = length xs /\ (2 <= Z.of_nat (length xs) < 2 ^ 63)%Z.
(** A cubic polynomial. *)
Definition cubic (c : R * R * R * R) (v : R) : R :=
  let '(p, q, r, s) := c in (p + q * v + r * v * v + s * v * v * v)%R.
