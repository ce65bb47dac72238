(** Specification vocabulary: tone curves.  Independent of the model of the
    program. *)
From Coq Require Import ZArith List Bool.
From Verif Require Import Spec_Bits.
Import ListNotations.
Local Open Scope Z_scope.

(** Clamp to the range of [bits]-bit unsigned numbers. *)
Definition saturate (bits v : Z) : Z := Z.max 0 (Z.min v (2 ^ bits - 1)).

(** Entry [i] of a curve and its neighbours; at the ends of the curve the
    missing neighbour is the entry itself. *)
Definition at_ (curve : list Z) (i : Z) : Z := nth (Z.to_nat i) curve 0.
Definition below (curve : list Z) (i : Z) : Z := if i =? 0 then at_ curve 0 else at_ curve (i - 1).
Definition above (curve : list Z) (i : Z) : Z :=
  if i =? Z.of_nat (length curve) - 1 then at_ curve i else at_ curve (i + 1).
Definition increasing (curve : list Z) : Prop :=
  forall i j, 0 <= i <= j -> j < Z.of_nat (length curve) -> at_ curve i <= at_ curve j.

(** No entry is so close to zero that a quarter of the span of its neighbours
    reaches below zero, and no span covers the whole 16-bit range. *)
Definition not_too_steep (curve : list Z) : Prop :=
  forall i, 0 <= i < Z.of_nat (length curve) -> at_ curve i <> 0 ->
    (above curve i - below curve i + 2) / 4 <= at_ curve i /\ above curve i - below curve i < 65534.

(** The curve rises about evenly on both sides of entry [i]. *)
Definition balanced (curve : list Z) (i : Z) : Prop :=
  let span := above curve i - below curve i in
  (at_ curve i <> 0 -> (span + 2) / 4 <= at_ curve i - below curve i) /\
  (at_ curve i <> 0 -> span / 4 <= above curve i - at_ curve i).

(** [p] lies within a quarter of the span around entry [i] (modulo 2^16); half the span above
    it for a zero entry. *)
Definition near (curve : list Z) (i p : Z) : Prop :=
  let c := at_ curve i in let d := above curve i - below curve i in
  exists e, p = (c + e) mod 65536 /\
    (if c =? 0 then 0 <= e <= d / 2 else - ((d + 2) / 4) <= e <= d / 4).
