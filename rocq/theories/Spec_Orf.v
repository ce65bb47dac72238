(** Specification of Olympus's compression, independent of the model of the
    program. *)
From Coq Require Import ZArith List Bool.
From Verif Require Import Spec_Bits Spec_Huffman Spec_Ljpeg.
Import ListNotations.
Local Open Scope Z_scope.

(** A pixel is predicted from those of its colour to the left, above and above to
    the left.  If the one in the corner lies between the other two, there is a slope
    that is continued if it is steep and averaged if it is not; otherwise the
    neighbour is taken that differs more from the corner. *)
Definition orf_prediction (pic : Z -> Z -> Z) (r c : Z) : Z :=
  if r <? 2 then (if c <? 2 then 0 else pic r (c - 2))
  else if c <? 2 then pic (r - 2) c
  else
    let lft := pic r (c - 2) in let up := pic (r - 2) c in let corner := pic (r - 2) (c - 2) in
    if (lft - corner) * (up - corner) <? 0 then
      (if (32 <? Z.abs (lft - corner)) || (32 <? Z.abs (up - corner)) then lft + up - corner else (lft + up) / 2)
    else if Z.abs (up - corner) <? Z.abs (lft - corner) then lft else up.
Definition orf_residual (pic : Z -> Z -> Z) (r c : Z) : Z := pic r c - orf_prediction pic r c.

(** The two low bits of the residual are written as they are.  What is above them
    is compared with a running mean: what is written is on which side it is and how
    far away. *)
Definition orf_distance (mean e : Z) : Z := if e / 4 - mean <? 0 then - (e / 4 - mean) - 1 else e / 4 - mean.
(** The number of low bits of the distance that are written as they are follows from
    the previous distance, and from the number of pixels since one that was far. *)
Definition bit_length (m : Z) : Z := if m <=? 0 then 0 else Z.log2 m + 1.
Definition orf_length (before calm : Z) : Z :=
  let i := if calm <? 3 then 2 else 0 in Z.max (2 + i) (bit_length before - i).
(** What is above those bits is written in unary notation below twelve. *)
Definition orf_word (before mean calm e : Z) : list bool :=
  let m := orf_distance mean e in
  let k := orf_length before calm in
  let high := m / 2 ^ k in
  (e / 4 - mean <? 0) :: binary 2 (e mod 4) ++
  (if high <? 12 then repeat false (Z.to_nat high) ++ [true]
   else repeat false 12 ++ binary (Z.to_nat (16 - k)) (2 * high)) ++
  binary (Z.to_nat k) (m mod 2 ^ k).

(** Distance, mean and calm before pixel [k] of a sequence of residuals *)
Fixpoint orf_state (e : nat -> Z) (k : nat) : Z * Z * Z :=
  match k with
  | O => (0, 0, 0)
  | S k =>
      let '(before, mean, calm) := orf_state e k in
      let m := orf_distance mean (e k) in
      (m, (3 * (e k / 4) + mean) / 32, if 16 <? m then 0 else calm + 1)
  end.
(** Even and odd columns have their own, and start anew in every row. *)
Definition orf_before (pic : Z -> Z -> Z) (r c : Z) : Z * Z * Z :=
  orf_state (fun k => orf_residual pic r (2 * Z.of_nat k + c mod 2)) (Z.to_nat (c / 2)).
Definition orf_pixel_coded (pic : Z -> Z -> Z) (r c : Z) : list bool :=
  let '(before, mean, calm) := orf_before pic r c in orf_word before mean calm (orf_residual pic r c).
Definition orf_coded (pic : Z -> Z -> Z) (w h : Z) : list bool :=
  flat_map (fun r => flat_map (orf_pixel_coded pic r) (upto w)) (upto h).
(** Distances have fifteen bits. *)
Definition orf_fits (pic : Z -> Z -> Z) (w h : Z) : Prop :=
  forall r c, 0 <= r < h -> 0 <= c < w ->
    let '(_, mean, _) := orf_before pic r c in orf_distance mean (orf_residual pic r c) < 2 ^ 15.
