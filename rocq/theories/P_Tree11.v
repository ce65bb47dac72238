(** Canon files with nested directories (C61): small pictures. *)
From Coq Require Import String Ascii ZArith List Bool Reals Lia ZifyBool ZifyNat.
From Flocq Require Import Core BinarySingleNaN.
From Verif Require Import Base Num F32 Bytes Pumps Packed Huffman Lookup Ljpeg Cr2 Tiff Transform Image Camera Clients Decoder Dec_Ljpeg Dispatch.
From Verif Require Import Spec_Bits Spec_Image Spec_Stream Spec_Huffman Spec_Ljpeg Spec_Sensor Spec_Curve Spec_Tiff Spec_Camera Spec_Known Spec_Meta Spec_File Spec_Dng Spec_Canon Spec_Tree Spec_TreeCanon.
From Verif Require Import P_Base P_Bits P_F32 P_Tiff3 P_Tiff5 P_Lookup P_Ljpeg12 P_Ljpeg13 P_Sensor4 P_Black P_Meta1 P_Meta2 P_File1 P_File2 P_Dng2 P_Dng3 P_Canon P_Canon2 P_Tree1 P_Tree2 P_Tree3 P_Tree10.
From Verif Require Props_Sensor Props_Meta.
Import ListNotations.
Local Open Scope Z_scope.

Section Any.
Context {M : Mode}.
Context (powf : f32 -> f32 -> f32) (parse_f32 : string -> option f32).
Variables (db : list table) (l : loader).
Hypothesis Hl : loader_new db = Ok l.
Ltac enter G := eapply lib_decodes; [exact Hl|]; unfold decode; rewrite G; cbn [bind decoder_image].

Lemma canon_small_nested : forall big ts fs off model data file o cam v w h jpeg pic vs p wr wg wg' wb,
  nested_photo l "" big ts "Canon" model file o cam -> canon_raw ts fs off -> from file off data -> find_hint cam "linearization" = false ->
  has_number fs T_ImageWidth (2 * w) /\ has_number fs T_ImageLength (v * h) \/ has_no fs T_ImageWidth /\ v * h <= 2 * w ->
  In (mkfield T_Cr2ColorData 3 vs) (visible ts) -> samples vs -> p = (if c_wb_offset cam =? 0 then 63 else c_wb_offset cam) -> 0 <= p ->
  firstn 4 (skipn (Z.to_nat p) vs) = [wr; wg; wg'; wb] -> 56 <= wr -> wg <= 27948 -> 56 <= wb ->
  holds_small_jpeg debug v w h jpeg data ->
  arranged fs v w h (small_rgb wr wg wb (if find_hint cam "40d_yuv" then 512 else 0) v jpeg) pic ->
  exists img, lib_decode powf parse_f32 db file = Ok img /\ shows_colours img cam o (2 * w) (v * h) /\ is_image (i_data img) (6 * w) (v * h) pic /\ balance img wr wg wb.
Proof.
  intros big ts fs off model data file o cam v w h jpeg pic vs p wr wg wg' wb Hp Hraw Hfrom Hh1 Hsz Hf Hvs Ep Hpp Hlev Hwr Hwg Hwb Hj Ha.
  destruct (nested_opened _ _ _ _ _ _ _ _ _ CR2 Hp eq_refl) as (root & [G P C N]).
  pose proof (np_file _ _ _ _ _ _ _ _ _ Hp) as TF. destruct (from_slice _ _ _ Hfrom (tf_bytes _ _ _ TF)) as [O3 _].
  assert (Hs : Z.of_nat (length data) + 16 < 2 ^ 32).
  { pose proof (tf_size _ _ _ TF). destruct Hfrom as [F1 F2]. rewrite <- F2, skipn_length. lia. }
  destruct (canon_raw_found _ _ _ _ _ P Hraw) as (sub & R & S0). pose proof (n_sees _ _ _ P) as R0.
  destruct (small_jpeg v w h jpeg data Hj Hs) as (lj & out & J1 & J2 & J3 & Hv & J5 & J6 & J7 & J8 & J9 & J10 & J11).
  (* white balance *)
  destruct (short_seen _ _ _ _ _ R0 Hf Hvs) as (en & En & Rd).
  assert (Q : forall i x, nth_error [wr; wg; wg'; wb] i = Some x -> get_force_u16 en (p + Z.of_nat i) = Ok x /\ sample x).
  { intros i x Hi. rewrite <- Hlev in Hi. apply slice_nth in Hi. split; [|exact (proj1 (Forall_forall _ _) Hvs x (nth_error_In _ _ Hi))].
    rewrite <- (Rd _ _ Hi). f_equal. lia. }
  destruct (Q 0%nat wr eq_refl) as [Q1 S1]. destruct (Q 1%nat wg eq_refl) as [Q2 S2]. destruct (Q 3%nat wb eq_refl) as [Q3 S3].
  replace (p + Z.of_nat 0) with p in Q1 by lia. change (Z.of_nat 1) with 1 in Q2. change (Z.of_nat 3) with 3 in Q3.
  (* colours *)
  assert (L3 : exists n, length out = (3 * n)%nat).
  { exists (Z.to_nat (2 * w * (v * h))). destruct J10 as [L _]. assert (0 < v * h) by nia. nia. }
  destruct L3 as [n Ln]. pose proof (pixels_all out n Ln) as Px.
  assert (Cv : convert_to_rgb root (set_orientation o cam) out = Ok (flat_map (canon_rgb wr wg wb (if find_hint cam "40d_yuv" then 512 else 0)) (pixels_of out n))).
  { rewrite <- Px at 1. apply (Props_Meta.C52_colours_partial M root (set_orientation o cam) en wr wg wb (pixels_of out n) En).
    - change (c_wb_offset (set_orientation o cam)) with (c_wb_offset cam). rewrite <- Ep. exact Q1.
    - change (c_wb_offset (set_orientation o cam)) with (c_wb_offset cam). rewrite <- Ep. exact Q2.
    - change (c_wb_offset (set_orientation o cam)) with (c_wb_offset cam). rewrite <- Ep. exact Q3.
    - unfold sample in S1. lia.
    - unfold sample in S2. lia.
    - unfold sample in S3. lia.
    - rewrite Px. exact J11. }
  set (colours := flat_map _ (pixels_of out n)) in Cv.
  assert (Ic : is_image colours (6 * w) (v * h) (small_rgb wr wg wb (if find_hint cam "40d_yuv" then 512 else 0) v jpeg)).
  { unfold colours, small_rgb. replace (6 * w) with (3 * (2 * w)) in * by lia. apply colours_image; [lia|exact J10|exact Ln]. }
  destruct (arranged_seen big fs sub lj v w h _ colours pic S0 Hv J5 J6 J2 J7 J8 Ic Ha) as (image & St & Si).
  assert (W : cr2_wb root (set_orientation o cam) = Ok (V4 (f32_of wr) (f32_of wg) (f32_of wb) NAN)).
  { unfold cr2_wb. rewrite En. change (c_wb_offset (set_orientation o cam)) with (c_wb_offset cam).
    replace (if negb (c_wb_offset cam =? 0) then c_wb_offset cam else 63) with p by (rewrite Ep; destruct (c_wb_offset cam =? 0); reflexivity).
    cbv zeta. rewrite Q1, Q2, Q3. reflexivity. }
  assert (Sz : cr2_size root sub (set_orientation o cam) 3 (6 * w) (v * h) out = Ok (6 * w, v * h, colours)).
  { unfold cr2_size. change (3 =? 3) with true. cbn iota. rewrite Cv. cbn [bind]. unfold has_entry. destruct Hsz as [[Z1 Z2]|[Z1 Z2]].
    - destruct (see_number _ _ _ _ _ S0 Z1) as (e1 & F1 & _). rewrite F1. rewrite (proj1 (see_usize _ _ _ _ _ S0 Z1)), (proj1 (see_usize _ _ _ _ _ S0 Z2)). cbn [bind].
      f_equal. f_equal. f_equal. lia.
    - rewrite (s_no _ _ _ S0 _ Z1). replace (6 * w / 3) with (2 * w) by (rewrite (Z.mul_comm 6 w); replace (w * 6) with (2 * w * 3) by lia; symmetry; apply Z.div_mul; lia).
      replace (2 * w <? v * h) with false by lia. reflexivity. }
  destruct (finished cam o (6 * w) (v * h) (V4 (f32_of wr) (f32_of wg) (f32_of wb) NAN) image N) as (img & I1 & I2 & I3 & I4 & I5).
  exists (img_three img). split; [|split; [|split]].
  - enter G. unfold cr2_image, check_supported. rewrite C. cbn [bind]. rewrite R. cbn [bind]. rewrite O3. cbn [bind]. rewrite J1. cbn [bind]. cbv zeta. rewrite J7. cbn [bind].
    rewrite J2, J3. change (2 =? 2) with true. cbn iota. rewrite J9. cbn [bind]. unfold cr2_linearize. change (find_hint (set_orientation o cam)) with (find_hint cam). rewrite Hh1. cbn [bind].
    rewrite Sz. cbn [bind]. rewrite St. cbn [bind]. rewrite W. cbn [bind]. rewrite I1. reflexivity.
  - apply (three_shown cam o (6 * w) w (v * h) _ image img I1). lia.
  - cbn [img_three i_data]. rewrite I3. exact Si.
  - unfold balance. cbn [img_three i_wb]. rewrite I5. cbn [e0 e1 e2 e3]. unfold sample in *. repeat split; try (apply number_near; lia).
Qed.
End Any.
