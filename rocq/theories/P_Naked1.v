(** Files without a header, and Kodak's EasyShare files (C64). *)
From Coq Require Import String Ascii ZArith List Bool Reals Lia Lra ZifyBool.
From Flocq Require Import Core BinarySingleNaN.
From Verif Require Import Base Num F32 Bytes Packed Tiff Transform Image Camera Clients Decoder Dec_Simple Dispatch.
From Verif Require Import Spec_Bits Spec_Image Spec_Packed Spec_Tiff Spec_Camera Spec_Known Spec_Meta Spec_File Spec_Tree Spec_TreeMore Spec_Dispatch Spec_Naked.
From Verif Require Import P_Base P_Bits P_F32 P_Packed2 P_Packed3 P_Packed4 P_Packed5 P_Meta1 P_Meta2 P_File1 P_File2 P_File3 P_Tree1 P_Tree2 P_Tree3 P_Tree13.
From Verif Require P_Dispatch Props_Packed.
Import ListNotations.
Local Open Scope Z_scope.

(** ** Samples with something after them *)
Lemma aligned_rows : forall rows w c more, 0 < w -> w mod 2 = 0 -> byte c -> bytes more ->
  Forall (fun row => zlen row = w) rows -> Forall (Forall (Spec_Packed.fits 12)) rows ->
  decode_12le_16bitaligned (pack_rows (2 * ((w * 12 / 8 + 1) / 2)) c (pack 12) rows ++ more) w (Z.of_nat (length rows)) = Ok (concat rows).
Proof.
  intros rows w c more Hw He Hc Hm F Ff. set (s := 2 * ((w * 12 / 8 + 1) / 2)).
  assert (Hs : 0 <= s) by (unfold s; lia).
  assert (Fs : Forall (fun row => zlen (pack 12 row) <= s) rows).
  { eapply Forall_impl; [|exact F]. cbn beta. intros row Hr. destruct (row_even row w Hr He) as [m Hm'].
    unfold zlen in *. rewrite (pack_length 12 row m Hm'). unfold s. lia. }
  destruct (decode_12le_16bitaligned_image (pack_rows s c (pack 12) rows ++ more) w (Z.of_nat (length rows))) as [img [E I]]; try assumption; try lia.
  - apply Forall_app. split; [|exact Hm]. apply pack_rows_bytes; [assumption|apply pack_bytes].
  - rewrite zlen_app, pack_rows_zlen by assumption. pose proof (zlen_nonneg more). unfold s. lia.
  - rewrite E. f_equal. eapply rows_determined; [exact Hw|exact F|exact I|]. intros r k Hr Hk. cbv beta.
    fold s. destruct (pack_rows_skip s c (pack 12) rows (Z.to_nat r) Fs Hs ltac:(lia)) as [rest Er].
    rewrite Z2Nat.id in Er by lia. rewrite skipn_app, Er, <- app_assoc.
    assert (Hrow : zlen (nth (Z.to_nat r) rows []) = w).
    { rewrite Forall_forall in F. apply F. apply nth_In. lia. }
    apply packed_sample_pack.
    + rewrite Forall_forall in Ff. apply Ff. apply nth_In. lia.
    + eapply row_even; eassumption.
    + lia.
Qed.
Lemma msb16_app : forall img w h rest, 0 < w -> 0 <= h -> (w * h) mod 4 = 0 -> Z.of_nat (length img) = w * h -> Forall (Spec_Packed.fits 12) img -> bytes rest ->
  decode_12be_msb16 (swapped 2 (pack 12 img) ++ rest) w h = Ok img.
Proof.
  intros img w h rest Hw Hh He Hl0 Hf Hr.
  assert (exists m, length img = (4 * m)%nat) as [m Em] by (exists (length img / 4)%nat; lia).
  assert (Hm : (12 * length img = 8 * (2 * (3 * m)))%nat) by lia.
  pose proof (pack_length 12 img _ Hm) as L. pose proof (swapped_length 2 _ (pack 12 img) ltac:(lia) L) as L2.
  destruct (decode_12be_msb16_image (swapped 2 (pack 12 img) ++ rest) w h) as [img' [E I]]; auto.
  - apply Forall_app. split; [eapply swapped_bytes; [lia|apply Nat.le_refl|apply pack_bytes]|exact Hr].
  - unfold zlen. rewrite app_length. lia.
  - rewrite E. f_equal. apply (image_determined img img' w h _ Hw Hh I Hl0). intros r c H1 H2. cbv beta.
    rewrite (swapped_app 2 (3 * m)) by (try lia; exact L2). rewrite (swapped_swapped 2 (3 * m)) by (try lia; exact L). apply packed_sample_pack; eauto. unfold zlen. rewrite Hl0. nia.
Qed.
Lemma lsb16_app : forall img w h rest, 0 < w -> 0 <= h -> w mod 8 = 0 -> Z.of_nat (length img) = w * h -> Forall (Spec_Packed.fits 10) img -> bytes rest ->
  decode_10le_lsb16 (swapped 2 (pack 10 img) ++ rest) w h = Ok img.
Proof.
  intros img w h rest Hw Hh He Hl0 Hf Hr.
  assert (exists m, length img = (8 * m)%nat) as [m Em].
  { exists (Z.to_nat (w / 8 * h)). assert (w = 8 * (w / 8)) by lia. set (a := w / 8) in *. nia. }
  assert (Hm : (10 * length img = 8 * (2 * (5 * m)))%nat) by lia.
  pose proof (pack_length 10 img _ Hm) as L. pose proof (swapped_length 2 _ (pack 10 img) ltac:(lia) L) as L2.
  destruct (decode_10le_lsb16_image (swapped 2 (pack 10 img) ++ rest) w h) as [img' [E I]]; auto.
  - apply Forall_app. split; [eapply swapped_bytes; [lia|apply Nat.le_refl|apply pack_bytes]|exact Hr].
  - unfold zlen. rewrite app_length. lia.
  - rewrite E. f_equal. apply (image_determined img img' w h _ Hw Hh I Hl0). intros r c H1 H2. cbv beta.
    rewrite (swapped_app 2 (5 * m)) by (try lia; exact L2). rewrite (swapped_swapped 2 (5 * m)) by (try lia; exact L). apply packed_sample_pack; eauto. unfold zlen. rewrite Hl0. nia.
Qed.

Section Any.
Context {M : Mode} (powf : f32 -> f32 -> f32) (parse_f32 : string -> option f32).
Variables (db : list table) (l : loader).
Hypothesis Hl : loader_new db = Ok l.
Ltac enter G := eapply lib_decodes; [exact Hl|]; unfold decode; rewrite G; cbn [bind decoder_image].
Lemma bare_file : forall file cam w h samples, bytes file -> Z.of_nat (length file) < 2 ^ 61 -> container_of file NoSignature -> ~ tiff_like file ->
  find_naked l (Z.of_nat (length file)) = Some cam -> no_black_area cam -> c_raw_width cam = w -> c_raw_height cam = h -> 0 < w -> 0 < h ->
  bare_data cam (Z.of_nat (length file)) w h file samples ->
  exists img, lib_decode powf parse_f32 db file = Ok img /\ shows img cam (c_orientation cam) w h /\ i_data img = samples /\ i_blacks img = c_blacks cam /\
    i_wb img = V4 B754_nan B754_nan B754_nan B754_nan.
Proof.
  intros file cam w h samples Hb Hs Hk Ht Hn N Ew Eh Hw Hh Hd.
  pose proof (P_Dispatch.unknown_theorem l file Hb Hk Ht) as G. unfold zlen in G. rewrite Hn in G.
  destruct (finished cam (c_orientation cam) w h (V4 B754_nan B754_nan B754_nan B754_nan) samples N) as (img & I1 & I2 & I3 & I4 & I5).
  replace (set_orientation (c_orientation cam) cam) with cam in I1 by (destruct cam; reflexivity).
  exists img. split; [|auto]. eapply lib_decodes; [exact Hl|]. unfold decode. unfold zlen. rewrite G. cbn [bind decoder_image].
  assert (Fs : c_filesize cam = Z.of_nat (length file)).
  { unfold find_naked in Hn. clear - Hn. assert (A : forall (p : camera -> bool) cs c, find_last p cs = Some c -> p c = true).
    { intros p cs c. unfold find_last. intros H. apply find_some in H. apply H. }
    apply A in Hn. lia. }
  unfold nkd_image. rewrite Ew, Eh, Fs. unfold umul. rewrite arith_u_ok by (change (2 ^ 64) with (8 * 2 ^ 61); lia). cbn [bind].
  replace ((w =? 0) || (h =? 0)) with false by lia. rewrite Z.div_div by lia.
  assert (Bz : bytes (buffer_new file)) by (apply Forall_app; split; [exact Hb|repeat constructor; unfold byte; lia]).
  unfold buffer_new in *. clear G. remember (Z.of_nat (length file)) as size eqn:Es. clear Es. revert Bz. destruct Hd as [rows c rest H1 H2 H3 H4 H5 H6|samples rest H1 H2 H3 H4 H5|samples rest H1 H2 H3 H4 H5]; rewrite H1; rewrite <- app_assoc; intros Bz; apply Forall_app in Bz; destruct Bz as [_ Bz].
  - rewrite H4 in *. rewrite aligned_rows; [|lia|apply even_mod; exact H2|exact H3|exact Bz|exact H5|exact H6]. cbn [bind]. exact I1.
  - rewrite H2. cbn [Z.eqb Pos.eqb]. rewrite msb16_app; [exact I1|lia|lia|exact H3|exact H4|exact H5|exact Bz].
  - rewrite H2. cbn [Z.eqb Pos.eqb]. rewrite lsb16_app; [exact I1|lia|lia|exact H3|exact H4|exact H5|exact Bz].
Qed.
Lemma part_near : forall v, 0 <= v < 2 ^ 16 -> nearest (fdiv (f32_of v) (flit 256 1)) (IZR v / 256).
Proof.
  intros v Hv. destruct (flit_int 256 ltac:(lia)) as [_ Vb]. destruct (of_exact v ltac:(lia)) as [Fa [Va _]].
  destruct (div_val (f32_of v) (flit 256 1) Fa) as [F V]; [rewrite Vb; apply not_0_IZR; lia| |].
  - rewrite Va, Vb. assert (0 <= IZR v <= 65536)%R by (split; apply IZR_le; lia). rewrite Rabs_pos_eq by lra. apply Rle_trans with 65536%R; [lra|apply IZR_le; lia].
  - apply rn_near; [exact F|]. unfold fdiv. rewrite V, Va, Vb. reflexivity.
Qed.
Lemma kdc_nested : forall big ts model file w h o cam vs samples rest W,
  nested_photo l "" big ts "EASTMAN KODAK COMPANY" model file o cam ->
  has_number (visible ts) T_KdcWidth w -> has_number (visible ts) T_KdcLength h -> has_numbers (visible ts) T_KdcOffset vs -> 13 <= Z.of_nat (length vs) ->
  from file (easyshare_start cam vs) (pack 12 samples ++ rest) -> Z.even w = true ->
  Z.of_nat (length samples) = (w + 80) * (h + 70) -> Forall (Spec_Packed.fits 12) samples -> easyshare_white big (visible ts) W ->
  exists img, lib_decode powf parse_f32 db file = Ok img /\ shows img cam o (w + 80) (h + 70) /\ i_data img = samples /\ i_blacks img = c_blacks cam /\
    W (e0 (i_wb img)) (e1 (i_wb img)) (e2 (i_wb img)) /\ e3 (i_wb img) = B754_nan.
Proof.
  intros big ts model file w h o cam vs samples rest W Hp Hw Hh Hv Lv Hd He Ls Hf HW. destruct (nested_opened _ _ _ _ _ _ _ _ _ KDC Hp eq_refl) as (root & [G P C N]).
  pose proof (n_sees _ _ _ P) as Q. destruct (see_usize _ _ _ _ _ Q Hw) as [Kw Rw]. destruct (see_usize _ _ _ _ _ Q Hh) as [Kh Rh].
  destruct (see_numbers _ _ _ _ _ Q Hv) as (en & E1 & E2 & E3).
  assert (N4 : nth_error vs 4 = Some (nth 4 vs 0)) by (apply nth_error_nth'; lia). assert (N12 : nth_error vs 12 = Some (nth 12 vs 0)) by (apply nth_error_nth'; lia).
  destruct (E3 4%nat _ N4) as (V4' & _ & R4). destruct (E3 12%nat _ N12) as (V12 & _ & R12).
  destruct (from_slice _ _ _ Hd (tf_bytes _ _ _ (np_file _ _ _ _ _ _ _ _ _ Hp))) as [Sd Bd]. rewrite <- app_assoc in Sd, Bd. apply Forall_app in Bd.
  assert (exists x y z, kdc_wb root = Ok (V4 x y z NAN) /\ W x y z) as (x & y & z & W1 & W2).
  { unfold kdc_wb. destruct HW as [r g b Hn|ra rb ga gb ba bb Hn|bs Hno Hn Ln].
    - destruct (see_numbers _ _ _ _ _ Q Hn) as (el & L1 & L2 & L3). rewrite L1, L2. cbn [length Z.of_nat Pos.of_succ_nat Pos.succ Z.eqb Pos.eqb negb].
      destruct (L3 0%nat r eq_refl) as (_ & A1 & B1). destruct (L3 1%nat g eq_refl) as (_ & A2 & B2). destruct (L3 2%nat b eq_refl) as (_ & A3 & B3).
      cbn [Z.of_nat Pos.of_succ_nat Pos.succ] in A1, A2, A3. rewrite A1, A2. cbn [bind]. rewrite A3. cbn [bind]. do 3 eexists. split; [reflexivity|]. auto using number_near.
    - destruct (see_fractions _ _ _ _ _ Q Hn) as (el & L1 & L2 & L3). rewrite L1, L2. cbn [length Z.of_nat Pos.of_succ_nat Pos.succ Z.eqb Pos.eqb negb].
      destruct (L3 0%nat _ _ eq_refl) as (x & A1 & B1). destruct (L3 1%nat _ _ eq_refl) as (y & A2 & B2). destruct (L3 2%nat _ _ eq_refl) as (z & A3 & B3).
      cbn [Z.of_nat Pos.of_succ_nat Pos.succ] in A1, A2, A3. rewrite A1, A2. cbn [bind]. rewrite A3. cbn [bind]. do 3 eexists. split; [reflexivity|]. auto.
    - rewrite (s_no _ _ _ Q _ Hno). destruct (see_has_bytes _ _ _ _ _ Q Hn) as (el & L1 & L2 & L3). destruct Hn as [_ Hb]. unfold fetch_tag. rewrite L1. cbn [bind]. rewrite L2, L3.
      replace (negb (Z.of_nat (length bs) =? 734) && negb (Z.of_nat (length bs) =? 1502)) with false by lia.
      destruct (be_two bs 148 Hb ltac:(lia) ltac:(lia)) as [A1 B1]. destruct (be_two bs 150 Hb ltac:(lia) ltac:(lia)) as [A2 B2]. rewrite A1, A2. cbn [bind].
      do 3 eexists. split; [reflexivity|]. split; [apply part_near; exact B1|]. split; [apply near_1|apply part_near; exact B2]. }
  destruct (finished cam o (w + 80) (h + 70) (V4 x y z NAN) samples N) as (img & I1 & I2 & I3 & I4 & I5). exists img. split; [|rewrite I5; cbn [e0 e1 e2 e3]; auto 10].
  enter G. unfold kdc_image, check_supported. rewrite C. cbn [bind]. rewrite Kw, Kh. cbn [bind]. unfold fetch_tag at 1. rewrite E1. cbn [bind]. rewrite E2.
  replace (Z.of_nat (length vs) <? 13) with false by lia. cbn [Z.of_nat Pos.of_succ_nat Pos.succ] in V4', V12. rewrite V4'. cbn [bind]. rewrite V12. cbn [bind].
  change (find_hint (set_orientation o cam)) with (find_hint cam). unfold easyshare_start in Sd. cbv zeta in Sd. rewrite Sd. cbn [bind].
  rewrite Props_Packed.C06_12be; [|lia|pose proof (even_mod w He); lia|lia|exact Ls|exact Hf|exact (proj2 Bd)]. cbn [bind]. rewrite W1. exact I1.
Qed.
End Any.
