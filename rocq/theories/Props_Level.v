(** C55: levels and white balance. *)
From Coq Require Import String ZArith List Bool Reals Lia.
From Flocq Require Import BinarySingleNaN.
From Verif Require Import Base Num F32 Cfa Transform Image Colors Spec_Orient Spec_Level P_F32 P_Level.
Import ListNotations.
Local Open Scope Z_scope.

(** Every sample becomes its height above black, as a part of the height of white,
    times the factor of the white balance, cut off at one.  The error is at most
    one part in two million. *)
Theorem C55_levels : forall cbrt pow, let N := f32_num cbrt pow in
  forall img b, well_formed b -> ocolors b = 4 -> sensible_levels img -> is_monochrome img = true \/ sensible_balance (i_wb img) ->
  exists out, level_and_balance img b = Ok out /\ owidth out = owidth b /\ oheight out = oheight b /\ ocolors out = 4 /\
    forall y x c v, 0 <= y < oheight b -> 0 <= x < owidth b -> 0 <= c < 4 -> sample_at b y x c = Some v -> ordinary img c v ->
      exists v', sample_at out y x c = Some v' /\ within v' (level_of img (if is_monochrome img then 1%R else factor (i_wb img) c) c (B2R v)).
Proof. exact @levels_right. Qed.
Print Assumptions C55_levels.

(** A brighter sample never becomes the darker one. *)
Theorem C55_order : forall cbrt pow, let N := f32_num cbrt pow in
  forall img b, well_formed b -> ocolors b = 4 -> sensible_levels img -> is_monochrome img = true \/ sensible_balance (i_wb img) ->
  exists out, level_and_balance img b = Ok out /\
    forall y x y' x' c v1 v2, 0 <= y < oheight b -> 0 <= x < owidth b -> 0 <= y' < oheight b -> 0 <= x' < owidth b -> 0 <= c < 4 ->
      sample_at b y x c = Some v1 -> sample_at b y' x' c = Some v2 ->
      is_finite v1 = true -> is_finite v2 = true -> (Rabs (B2R v1) <= 131072)%R -> (Rabs (B2R v2) <= 131072)%R -> (B2R v1 <= B2R v2)%R ->
      exists w1 w2, sample_at out y x c = Some w1 /\ sample_at out y' x' c = Some w2 /\ (B2R w1 <= B2R w2)%R.
Proof. exact @levels_ordered. Qed.
Print Assumptions C55_order.

(** White in green becomes exactly one. *)
Theorem C55_white : forall cbrt pow, let N := f32_num cbrt pow in
  forall img b, well_formed b -> ocolors b = 4 -> sensible_levels img -> is_monochrome img = true \/ sensible_balance (i_wb img) ->
  exists out, level_and_balance img b = Ok out /\
    forall y x v, 0 <= y < oheight b -> 0 <= x < owidth b -> sample_at b y x 1 = Some v -> is_finite v = true -> B2R v = IZR (at4 (i_whites img) 1) ->
      exists w, sample_at out y x 1 = Some w /\ B2R w = 1%R.
Proof. exact @white_green. Qed.
Print Assumptions C55_white.

Example C55_levels_ex : forall cbrt pow, let N := f32_num cbrt pow in exists out v',
  level_and_balance level_image level_buffer = Ok out /\ sample_at out 0 0 0 = Some v' /\ within v' (Rmin 1 ((1000 - 64) / (4095 - 64) * (512 / 256))).
Proof.
  intros cbrt pow N. destruct level_image_ok as (H1 & H2 & H3 & H4). destruct (C55_levels cbrt pow level_image level_buffer H1 H2 H3 (or_intror H4)) as (out & E & _ & _ & _ & P).
  destruct (P 0 0 0 (f32_of 1000) ltac:(cbn; lia) ltac:(cbn; lia) ltac:(lia) eq_refl (ordinary_int 1000 ltac:(lia))) as (v' & V1 & V2).
  exists out, v'. split; [exact E|]. split; [exact V1|]. destruct (of_exact 1000 ltac:(lia)) as [_ [R1 _]]. rewrite R1 in V2.
  destruct (of_exact 512 ltac:(lia)) as [_ [R2 _]]. destruct (of_exact 256 ltac:(lia)) as [_ [R3 _]]. unfold level_of in V2. change (is_monochrome level_image) with false in V2. cbv iota in V2.
  assert (Q : factor (i_wb level_image) 0 = (B2R (f32_of 512) / B2R (f32_of 256))%R) by reflexivity. rewrite Q, R2, R3 in V2. exact V2.
Qed.
Example C55_white_ex : forall cbrt pow, let N := f32_num cbrt pow in exists out w, level_and_balance level_image level_buffer = Ok out /\ sample_at out 0 0 1 = Some w /\ B2R w = 1%R.
Proof.
  intros cbrt pow N. destruct level_image_ok as (H1 & H2 & H3 & H4). destruct (C55_white cbrt pow level_image level_buffer H1 H2 H3 (or_intror H4)) as (out & E & P).
  destruct (of_exact 4095 ltac:(lia)) as [F [R1 _]]. destruct (P 0 0 (f32_of 4095) ltac:(cbn; lia) ltac:(cbn; lia) eq_refl F R1) as (w & W1 & W2). exists out, w. auto.
Qed.
