(** C56: gamma correction.  Partial: in exact arithmetic; the rounding of the single
    precision numbers, and of the power function of the platform, is left out. *)
From Coq Require Import String ZArith List Bool Reals Lia Lra.
From Verif Require Import Base Num Transform Image Colors Spec_Orient Spec_Real Spec_Gamma P_Gamma.
Import ListNotations.
Local Open Scope Z_scope.

(** Every sample goes through the transfer function of BT.709, after it is cut off
    below 0 and above 1 and rounded down to a multiple of 2^-16. *)
Theorem C56_bt709_partial : forall root3, let N := real_num root3 Rpower in forall (M : Mode) b, well_formed b ->
  exists out, gamma b = Ok out /\ owidth out = owidth b /\ oheight out = oheight b /\ ocolors out = ocolors b /\
    forall y x c v, 0 <= y < oheight b -> 0 <= x < owidth b -> 0 <= c < ocolors b -> sample_at b y x c = Some v ->
      sample_at out y x c = Some (bt709 (step_below (clamp v))).
Proof. exact gamma_is. Qed.
Print Assumptions C56_bt709_partial.
(** Brighter samples stay brighter, or equal, also across the two parts of the
    function; and the results are from 0 to 1. *)
Theorem C56_order_partial : forall root3, let N := real_num root3 Rpower in forall (M : Mode) b, well_formed b ->
  exists out, gamma b = Ok out /\
    forall y x c v y' x' c' v', 0 <= y < oheight b -> 0 <= x < owidth b -> 0 <= c < ocolors b -> sample_at b y x c = Some v ->
      0 <= y' < oheight b -> 0 <= x' < owidth b -> 0 <= c' < ocolors b -> sample_at b y' x' c' = Some v' -> (v <= v')%R ->
      exists g g', sample_at out y x c = Some g /\ sample_at out y' x' c' = Some g' /\ (0 <= g <= g')%R /\ (g' <= 1)%R.
Proof. exact gamma_order. Qed.
Print Assumptions C56_order_partial.
Example C56_ex : forall root3, let N := real_num root3 Rpower in forall M : Mode, exists out, gamma (mkop 3 1 1 [(-1)%R; 2%R; (1 / 128)%R]) = Ok out /\
  sample_at out 0 0 0 = Some 0%R /\ sample_at out 0 1 0 = Some 1%R /\ sample_at out 0 2 0 = Some (9 / 256)%R.
Proof.
  intros root3 N M. destruct (C56_bt709_partial root3 M (mkop 3 1 1 [(-1)%R; 2%R; (1 / 128)%R])) as (out & E & _ & _ & _ & P); [repeat split; cbn; lia|].
  exists out. split; [exact E|]. rewrite (P 0 0 0 (-1)%R), (P 0 1 0 2%R), (P 0 2 0 (1 / 128)%R) by (cbn; lia || reflexivity).
  destruct bt709_ends as [B0 B1]. unfold clamp, step_below.
  rewrite (Rmin_right 1 (-1)), (Rmax_left 0 (-1)), (Rmin_left 1 2), (Rmax_right 0 1), (Rmin_right 1 (1 / 128)), (Rmax_right 0 (1 / 128)) by lra.
  replace (0 * 65536)%R with (IZR 0) by (cbn; lra). replace (1 * 65536)%R with (IZR 65536) by (cbn; lra). replace (1 / 128 * 65536)%R with (IZR 512) by (cbn; lra). rewrite !Flocq.Core.Raux.Zfloor_IZR.
  replace (IZR 0 / 65536)%R with 0%R by (cbn; lra). replace (IZR 65536 / 65536)%R with 1%R by (cbn; lra). rewrite B0, B1. split; [reflexivity|]. split; [reflexivity|].
  unfold bt709. destruct (Rle_dec (512 / 65536) (18 / 1000)); [|lra]. f_equal. lra.
Qed.
