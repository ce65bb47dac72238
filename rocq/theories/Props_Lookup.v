(** Properties C14 and C15: clamping and dithered tone curves. *)
From Coq Require Import ZArith List Bool Lia.
From Verif Require Import Base Lookup Spec_Bits Spec_Curve P_Base P_Lookup.
Import ListNotations.
Local Open Scope Z_scope.

(** ** C14: clamping to a bit depth *)

(** To 16 bits, once stored in a 16-bit sample: saturation. *)
Theorem C14_clamp_16 : forall {M : Mode} v, - 2 ^ 31 <= v < 2 ^ 31 ->
  exists c, clampbits v 16 = Ok c /\ as_u16 c = saturate 16 v.
Proof. exact @clampbits_16. Qed.
Print Assumptions C14_clamp_16.
Example C14_clamp_16_ex : clampbits (M := true) 70000 16 = Ok (-1) /\ as_u16 (-1) = 65535.
Proof. split; reflexivity. Qed.

(** To any depth: negative values give 0, values that fit are kept; what is
    missing from saturation is the last case, where -1 is returned. *)
Theorem C14_clamp_partial : forall {M : Mode} v bits, 1 <= bits <= 31 -> - 2 ^ 31 <= v < 2 ^ 31 ->
  clampbits v bits = Ok (if v <? 0 then 0 else if v <? 2 ^ bits then v else -1).
Proof. exact @clampbits_spec. Qed.
Print Assumptions C14_clamp_partial.
Example C14_clamp_partial_ex : clampbits (M := false) (-5) 12 = Ok 0 /\ clampbits (M := false) 4095 12 = Ok 4095.
Proof. split; reflexivity. Qed.
Theorem C14_clamp_refuted : exists v, 0 <= v < 2 ^ 31 /\ forall M : Mode, clampbits v 15 <> Ok (saturate 15 v).
Proof. exact clamp_wrong. Qed.
Print Assumptions C14_clamp_refuted.

(** ** C15: dithering *)

(** The random state and the sum never overflow, whatever the table. *)
Theorem C15_never_overflows : forall {M : Mode} tbl v rand c b d,
  get tbl v = Ok (c, b, d) -> 0 <= b < 65536 -> 0 <= d < 65536 -> 0 <= rand < 2 ^ 32 ->
  exists p rand', dither tbl v rand = Ok (p, rand') /\ 0 <= p < 65536 /\ 0 <= rand' < 2 ^ 32.
Proof. exact @dither_total. Qed.
Print Assumptions C15_never_overflows.
Example C15_never_overflows_ex :
  dither (M := true) [(0, 0, 0); (65535, 65535, 65535)] 1 4294967295 = Ok (32750, 1028965035).
Proof. vm_compute. reflexivity. Qed.

(** Where the curve rises evenly the result is between the neighbouring entries. *)
Theorem C15_between_partial : forall {M : Mode} curve i rand,
  samples curve -> increasing curve -> not_too_steep curve ->
  0 <= i < Z.of_nat (length curve) -> balanced curve i -> 0 <= rand < 2 ^ 32 ->
  exists tbl p rand', lookup_new curve = Ok tbl /\ dither tbl i rand = Ok (p, rand') /\ 0 <= rand' < 2 ^ 32 /\
    below curve i <= p <= above curve i.
Proof. exact @dither_between. Qed.
Print Assumptions C15_between_partial.
Example C15_between_partial_ex :
  balanced [0; 10; 22; 30] 1 /\ not_too_steep [0; 10; 22; 30] /\
  (tbl <- lookup_new (M := true) [0; 10; 22; 30] ;; dither (M := true) tbl 1 2047) = Ok (15, 32137900).
Proof.
  split; [vm_compute; split; intros; discriminate|]. split; [|vm_compute; reflexivity].
  intros i Hi. change (Z.of_nat (length [0; 10; 22; 30])) with 4 in Hi.
  assert (i = 0 \/ i = 1 \/ i = 2 \/ i = 3) as [-> | [-> | [-> | ->]]] by lia; vm_compute; split; congruence.
Qed.
(** In general it stays within a quarter of the span around the entry. *)
Theorem C15_near : forall {M : Mode} curve i rand, samples curve -> increasing curve -> not_too_steep curve ->
  0 <= i < Z.of_nat (length curve) -> 0 <= rand < 2 ^ 32 ->
  exists tbl p rand', lookup_new curve = Ok tbl /\ dither tbl i rand = Ok (p, rand') /\ 0 <= rand' < 2 ^ 32 /\ near curve i p.
Proof. exact @dither_near. Qed.
Print Assumptions C15_near.

(** Not every increasing curve is accepted: a checked build panics on this one. *)
Theorem C15_curve_refuted : exists curve, samples curve /\ increasing curve /\ lookup_new (M := true) curve = Panic.
Proof. exact curve_underflow. Qed.
Print Assumptions C15_curve_refuted.
(** At the upper end of a curve the result can wrap around to black. *)
Theorem C15_wraps_refuted : exists curve rand, samples curve /\ increasing curve /\ 0 <= rand < 2 ^ 32 /\
  forall M : Mode, exists tbl p rand', lookup_new curve = Ok tbl /\ dither tbl 2 rand = Ok (p, rand') /\
    p < at_ curve 0 < at_ curve 1 /\ at_ curve 1 < at_ curve 2.
Proof. exact curve_wraps. Qed.
Print Assumptions C15_wraps_refuted.
