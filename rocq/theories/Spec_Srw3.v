(** Specification of Samsung's third compression, independent of the model of the
    program. *)
From Coq Require Import ZArith List Bool.
From Verif Require Import Spec_Bits Spec_Huffman Spec_Ljpeg Spec_Srw1.
Import ListNotations.
Local Open Scope Z_scope.

(** What the encoder chooses for the whole picture, and for group [g] (sixteen pixels) of
    row [r]: *)
Record samsung3 := {
  n_depth : Z;                     (* bits of a sample *)
  n_init : Z;                      (* prediction at the left border *)
  n_plain : bool;                  (* differences are never scaled *)
  n_simple : bool;                 (* only two ways of prediction *)
  n_full : bool;                   (* no group is left out *)
  n_scale : Z -> Z -> Z;           (* scale of the differences, for every fourth group *)
  n_scale_op : Z -> Z -> Z;        (* how it is coded *)
  n_motion : Z -> Z -> Z;          (* way of prediction *)
  n_keep : Z -> Z -> bool;         (* ... that of the group before *)
  n_skip : Z -> Z -> bool;         (* all differences are 0 *)
  n_op : Z -> Z -> Z -> Z;         (* how the bits of a quarter are coded *)
  n_len : Z -> Z -> Z -> Z;        (* bits of the differences of a quarter *)
  n_diff : Z -> Z -> Z             (* differences of the pixels *)
}.

(** Scale *)
Definition n_scaled (e : samsung3) (g : Z) : bool := negb (n_plain e) && (g mod 4 =? 0).
Definition n_scale_at (e : samsung3) (r g : Z) : Z := if n_scaled e g then n_scale e r g else 0.
Definition n_scale_fits (e : samsung3) (r g : Z) : Prop :=
  n_scale_op e r g = 0 /\ n_scale e r g = 0 \/
  n_scale_op e r g = 1 /\ n_scale e r g = -2 \/
  n_scale_op e r g = 2 /\ n_scale e r g = 2 \/
  n_scale_op e r g = 3 /\ 0 <= n_scale e r g < 4096.
Definition n_scale_bits (e : samsung3) (r g : Z) : list bool :=
  if n_scaled e g then binary 2 (n_scale_op e r g) ++ (if n_scale_op e r g =? 3 then binary 12 (n_scale e r g) else []) else [].

(** Prediction: 7 is from the group before, the others from the two rows above, with a
    displacement, 2 and 4 with the mean of two pixels of the same colour. *)
Definition n_motion_before (e : samsung3) (r g : Z) : Z := if g =? 0 then 7 else n_motion e r (g - 1).
Definition n_motion_fits (e : samsung3) (r g : Z) : Prop :=
  0 <= n_motion e r g <= 7 /\ (r < 2 -> n_motion e r g = 7) /\
  (if n_simple e then n_motion e r g = 3 \/ n_motion e r g = 7
   else n_keep e r g = true -> n_motion e r g = n_motion_before e r g).
Definition n_motion_bits (e : samsung3) (r g : Z) : list bool :=
  if n_simple e then [n_motion e r g =? 3]
  else if n_keep e r g then [true] else false :: binary 3 (n_motion e r g).
Definition n_slide (m : Z) : Z := nth (Z.to_nat m) [-4; -2; -2; 0; 0; 2; 4] 0.
Definition n_mean (m : Z) : bool := (m =? 2) || (m =? 4).
Definition n_above_row (r c : Z) : Z := if Z.odd (r + c) then r - 2 else r - 1.
Definition n_above_column (m r c : Z) : Z :=
  (if Z.odd (r + c) then c else if Z.odd c then c - 1 else c + 1) + n_slide m.
Definition n_predicted (e : samsung3) (pic : Z -> Z -> Z) (r c : Z) : Z :=
  let g := c / 16 in
  let m := n_motion e r g in
  if m =? 7 then if g =? 0 then n_init e else pic r (16 * g - 2 + c mod 2)
  else
    let r' := n_above_row r c in
    let c' := n_above_column m r c in
    if n_mean m then (pic r' c' + pic r' (c' + 2) + 1) / 2 else pic r' c'.
(** The pixels used for the prediction are in the picture. *)
Definition n_inside (e : samsung3) (w r c : Z) : Prop :=
  let m := n_motion e r (c / 16) in
  m <> 7 -> 0 <= n_above_column m r c /\ n_above_column m r c + (if n_mean m then 2 else 0) < w.

(** Numbers of bits: like the quarter in the last group that was not left out, one more,
    one less, or itself. *)
Fixpoint n_before (e : samsung3) (r i : Z) (g : nat) : Z :=
  match g with
  | O => if r <? 2 then 7 else 4
  | S g => if n_skip e r (Z.of_nat g) then n_before e r i g else n_len e r (Z.of_nat g) i
  end.
Definition n_len_fits (e : samsung3) (r g i : Z) : Prop :=
  let before := n_before e r i (Z.to_nat g) in
  0 <= n_len e r g i <= n_depth e + 1 /\
  (n_op e r g i = 0 /\ n_len e r g i = before \/
   n_op e r g i = 1 /\ n_len e r g i = before + 1 \/
   n_op e r g i = 2 /\ n_len e r g i = before - 1 \/
   n_op e r g i = 3 /\ n_len e r g i < 16).
Definition n_len_at (e : samsung3) (r g i : Z) : Z := if n_skip e r g then 0 else n_len e r g i.
Definition n_lens_bits (e : samsung3) (r g : Z) : list bool :=
  (if n_full e then [] else [n_skip e r g]) ++
  (if n_skip e r g then [] else
     flat_map (fun i => binary 2 (n_op e r g i)) (upto 4) ++
     flat_map (fun i => if n_op e r g i =? 3 then binary 4 (n_len e r g i) else []) (upto 4)).

(** The pixels of one colour of a group come before those of the other. *)
Definition n_order (r i : Z) : Z := 2 * (i mod 8) + (if Z.even r then i / 8 else 1 - i / 8).
Definition n_diffs_bits (e : samsung3) (r g : Z) : list bool :=
  flat_map (fun i => signed_bits (n_len_at e r g (i / 4)) (n_diff e r (16 * g + n_order r i))) (upto 16).

Definition n_group (e : samsung3) (r g : Z) : list bool :=
  n_scale_bits e r g ++ n_motion_bits e r g ++ n_lens_bits e r g ++ n_diffs_bits e r g.
Definition n_row (e : samsung3) (w r : Z) : list bool := flat_map (n_group e r) (upto (w / 16)).

(** The choices code the picture: samples have the given number of bits; negative sums
    stand for 0. *)
Record n_fits (e : samsung3) (pic : Z -> Z -> Z) (w h : Z) : Prop := {
  nf_depth : 1 <= n_depth e <= 15;
  nf_init : 0 <= n_init e < 2 ^ 14;
  nf_pic : forall r c, 0 <= r < h -> 0 <= c < w -> 0 <= pic r c < 2 ^ n_depth e;
  nf_scale : forall r g, 0 <= r < h -> 0 <= g < w / 16 -> n_scaled e g = true -> n_scale_fits e r g;
  nf_motion : forall r g, 0 <= r < h -> 0 <= g < w / 16 -> n_motion_fits e r g;
  nf_inside : forall r c, 0 <= r < h -> 0 <= c < w -> n_inside e w r c;
  nf_skip : forall r g, 0 <= r < h -> 0 <= g < w / 16 -> n_full e = true -> n_skip e r g = false;
  nf_len : forall r g i, 0 <= r < h -> 0 <= g < w / 16 -> 0 <= i < 4 -> n_skip e r g = false -> n_len_fits e r g i;
  nf_diff : forall r g i, 0 <= r < h -> 0 <= g < w / 16 -> 0 <= i < 16 ->
    signed_fits (n_len_at e r g (i / 4)) (n_diff e r (16 * g + n_order r i));
  nf_sum : forall r c, 0 <= r < h -> 0 <= c < w ->
    pic r c = Z.max 0 (n_predicted e pic r c + n_diff e r c * (2 * n_scale_at e r (c / 16) + 1) + n_scale_at e r (c / 16))
}.

(** The sixteen bytes at the start; [other] are the parts the decoder does not use. *)
Definition n_header (e : samsung3) (x : bool) (other : Z -> Z) : list bool :=
  binary 16 (other 0) ++ binary 4 (other 1) ++ binary 4 (n_depth e - 1) ++ binary 4 (other 2) ++ binary 4 (other 3) ++
  binary 16 (other 4) ++ binary 16 (other 5) ++ binary 16 (other 6) ++ binary 4 (other 7) ++
  [x; n_plain e; n_simple e; n_full e] ++
  binary 8 (other 8) ++ binary 8 (other 9) ++ binary 8 (other 10) ++ binary 2 (other 11) ++ binary 14 (n_init e).
