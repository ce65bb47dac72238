(** Files that end before their picture (C68). *)
From Coq Require Import String Ascii ZArith List Bool Reals Lia.
From Verif Require Import Base Num F32 Bytes Tiff Transform Image Camera Clients Decoder Dec_Simple Dec_Pred Dec_Nef Dec_Ljpeg Dispatch.
From Verif Require Import Spec_Image Spec_Tiff Spec_Camera Spec_Meta Spec_File Spec_Tree Spec_TreeMore Spec_Naked Spec_Cut.
From Verif Require Import P_Base P_File1 P_File2 P_File3 P_Tree1 P_Tree2 P_Tree3 P_Tree14 P_Missing1.
From Verif Require Props_Packed.
Import ListNotations.
Local Open Scope Z_scope.
Section Any.
Context {M : Mode} (powf : f32 -> f32 -> f32) (parse_f32 : string -> option f32).
Variables (db : list table) (l : loader).
Hypothesis Hl : loader_new db = Ok l.
Lemma after_end : forall file start, Z.of_nat (length file) + 16 < start -> slice_from (buffer_new file) start = Panic.
Proof. intros file start H. unfold slice_from. unfold buffer_new. rewrite zlen_app. unfold zlen. change (length (zeros 16)) with 16%nat. replace (start <=? _) with false by lia. rewrite andb_false_r. reflexivity. Qed.
Lemma cut_short : forall big ts make tag model file o cam, nested_photo l "" big ts make model file o cam -> In (make, tag) strip_makers -> ends_before_picture ts file make tag ->
  decode powf parse_f32 l file = Panic /\ lib_decode powf parse_f32 db file = Err "Caught a panic while decoding.".
Proof.
  intros big ts make tag model file o cam Hp Hk (raw & w & h & start & D1 & D2 & D3 & (X1 & X2 & X3) & D4 & Hs).
  assert (D : decode powf parse_f32 l file = Panic); [|split; [exact D|eapply lib_panics; [exact Hl|exact D]]]. unfold decode. apply after_end in Hs.
  repeat (destruct Hk as [Hk|Hk]; [injection Hk as <- <-; destruct (nested_opened _ _ _ _ _ _ _ _ _ _ Hp eq_refl) as (root & [G P C N]); destruct (n_with _ _ _ P _ _ D1) as (sub & F & R); pose proof (tree_sees _ _ _ R) as S0;
    destruct (see_usize _ _ _ _ _ S0 D2) as [Uw _]; destruct (see_usize _ _ _ _ _ S0 D3) as [Uh _]; destruct (see_usize _ _ _ _ _ S0 D4) as [Us _];
    try (destruct (X1 (or_introl eq_refl)) as (? & ? & Y1 & Y2); destruct (X2 eq_refl) as (? & Y3); destruct (see_usize _ _ _ _ _ S0 Y3) as [V3 _]);
    try destruct (X1 (or_intror eq_refl)) as (? & ? & Y1 & Y2); try (destruct (see_usize _ _ _ _ _ S0 Y1) as [V1 _]; destruct (see_usize _ _ _ _ _ S0 Y2) as [V2 _]);
    try (destruct (X3 ltac:(cbn [In]; tauto)) as (counts & Y3); destruct (see_numbers _ _ _ _ _ S0 Y3) as (en & E1 & E2 & E3));
    rewrite G; cbn [bind decoder_image]; unfold srw_image, arw_image, orf_image, erf_image, mef_image, dcr_image, pef_image, tfr_image, check_supported, fetch_ifd, fetch_tag; rewrite C; cbn [bind]; rewrite F; cbn [bind]; rewrite Uw; cbn [bind]; rewrite Uh; cbn [bind]; rewrite Us; cbn [bind];
    try (rewrite V3; cbn [bind]); try (rewrite V1; cbn [bind]; rewrite V2); try (rewrite E1; cbn [bind]; rewrite (counts_total en counts E2) by (intros k v Hk'; apply (E3 k v Hk'))); try (destruct (negb _)); cbn [bind]; rewrite Hs; reflexivity|]).
  destruct Hk.
Qed.
Lemma cut_wide : forall big ts make tag raw model file h start o cam, nested_photo l "" big ts make model file o cam ->
  make = "KODAK"%string /\ tag = T_StripOffsets \/ make = "NIKON"%string /\ tag = T_CFAPattern ->
  first_wide ts tag raw -> has_number (visible [raw]) T_ImageLength h -> has_number (visible [raw]) T_StripOffsets start -> Z.of_nat (length file) + 16 < start ->
  decode powf parse_f32 l file = Panic /\ lib_decode powf parse_f32 db file = Err "Caught a panic while decoding.".
Proof.
  intros big ts make tag raw model file h start o cam Hp Hk (before & after & D1 & D1' & D1'') D3 D4 Hs.
  assert (D : decode powf parse_f32 l file = Panic); [|split; [exact D|eapply lib_panics; [exact Hl|exact D]]]. unfold decode. apply after_end in Hs.
  destruct Hk as [[-> ->]|[-> ->]]; (destruct (nested_opened _ _ _ _ _ _ _ _ _ _ Hp eq_refl) as (root & [G P C N]); rewrite G; cbn [bind decoder_image]; unfold dcs_image, nrw_image, check_supported; rewrite C; cbn [bind];
    destruct (n_tree _ _ _ P) as (is & -> & R); destruct (wide_found big _ _ (root_again big _ ts is 0 0 big R) before raw after D1 D1' D1'') as (sub & F & Rs); pose proof (tree_sees _ _ _ Rs) as S0;
    destruct D1'' as (w & D2 & _); destruct (see_usize _ _ _ _ _ S0 D2) as [Uw _]; destruct (see_usize _ _ _ _ _ S0 D3) as [Uh _]; destruct (see_usize _ _ _ _ _ S0 D4) as [Us _];
    rewrite F; cbn [bind]; rewrite Uw; cbn [bind]; rewrite Uh; cbn [bind]; rewrite Us; cbn [bind]; rewrite Hs; reflexivity).
Qed.
Lemma cut_easyshare : forall big ts model file w h o cam vs, nested_photo l "" big ts "EASTMAN KODAK COMPANY" model file o cam ->
  has_number (visible ts) T_KdcWidth w -> has_number (visible ts) T_KdcLength h -> has_numbers (visible ts) T_KdcOffset vs -> 13 <= Z.of_nat (length vs) ->
  Z.of_nat (length file) + 16 < easyshare_start cam vs ->
  decode powf parse_f32 l file = Panic /\ lib_decode powf parse_f32 db file = Err "Caught a panic while decoding.".
Proof.
  intros big ts model file w h o cam vs Hp Hw Hh Hv Lv Hs. assert (D : decode powf parse_f32 l file = Panic); [|split; [exact D|eapply lib_panics; [exact Hl|exact D]]]. unfold decode. apply after_end in Hs.
  destruct (nested_opened _ _ _ _ _ _ _ _ _ KDC Hp eq_refl) as (root & [G P C N]). pose proof (n_sees _ _ _ P) as S1.
  destruct (see_usize _ _ _ _ _ S1 Hw) as [Uw _]. destruct (see_usize _ _ _ _ _ S1 Hh) as [Uh _]. destruct (see_numbers _ _ _ _ _ S1 Hv) as (en & E1 & E2 & E3).
  assert (N4 : nth_error vs 4 = Some (nth 4 vs 0)) by (apply nth_error_nth'; lia). assert (N12 : nth_error vs 12 = Some (nth 12 vs 0)) by (apply nth_error_nth'; lia).
  destruct (E3 4%nat _ N4) as (V4' & _ & R4). destruct (E3 12%nat _ N12) as (V12 & _ & R12).
  rewrite G. cbn [bind decoder_image]. unfold kdc_image, check_supported, fetch_tag. rewrite C. cbn [bind]. rewrite Uw. cbn [bind]. rewrite Uh. cbn [bind]. rewrite E1. cbn [bind]. rewrite E2.
  replace (Z.of_nat (length vs) <? 13) with false by lia. cbn [Z.of_nat Pos.of_succ_nat Pos.succ] in V4', V12. rewrite V4'. cbn [bind]. rewrite V12. cbn [bind].
  change (find_hint (set_orientation o cam)) with (find_hint cam). unfold easyshare_start in Hs. cbv zeta in Hs. rewrite Hs. reflexivity.
Qed.
Lemma cut_black : forall big ts raw model file w h o cam, nested_photo l "" big ts "NIKON" model file o cam ->
  find_hint cam "coolpixsplit" = false -> find_hint cam "msb32" = true -> find_hint cam "nowb" = true -> 0 < h ->
  first_wide ts T_CFAPattern raw -> has_number (visible [raw]) T_ImageWidth w -> has_number (visible [raw]) T_ImageLength h -> has_number (visible [raw]) T_StripOffsets (Z.of_nat (length file) + 16) ->
  exists img, lib_decode powf parse_f32 db file = Ok img /\ shows img cam o w h /\ i_data img = zeros (w * h).
Proof.
  intros big ts raw model file w h o cam Hp N1 N2 N3 Hh (before & after & D1 & D1' & D1'') D2 D3 D4.
  destruct (nested_opened _ _ _ _ _ _ _ _ _ NRW Hp eq_refl) as (root & [G P C N]). destruct (finished cam o w h nans (zeros (w * h)) N) as (img & I1 & I2 & I3 & _). exists img. split; [|auto].
  eapply lib_decodes; [exact Hl|]. unfold decode. rewrite G. cbn [bind decoder_image]. unfold nrw_image, check_supported. rewrite C. cbn [bind].
  assert (Wb : nrw_wb root (set_orientation o cam) = Ok nans) by (unfold nrw_wb; change (find_hint (set_orientation o cam)) with (find_hint cam); rewrite N3; reflexivity).
  destruct (n_tree _ _ _ P) as (is & -> & R). destruct (wide_found big _ _ (root_again big _ ts is 0 0 big R) before raw after D1 D1' D1'') as (sub & F & Rs). pose proof (tree_sees _ _ _ Rs) as S0.
  destruct (see_usize _ _ _ _ _ S0 D2) as [Uw _]. destruct (see_usize _ _ _ _ _ S0 D3) as [Uh _]. destruct (see_usize _ _ _ _ _ S0 D4) as [Us _].
  assert (0 < w). { destruct D1'' as (w' & Hw1 & Hw2). pose proof (see_usize _ _ _ _ _ S0 Hw1) as [X _]. rewrite Uw in X. injection X as ->. lia. }
  assert (Sl : slice_from (buffer_new file) (Z.of_nat (length file) + 16) = Ok []).
  { unfold slice_from, buffer_new. rewrite zlen_app. unfold zlen. change (length (zeros 16)) with 16%nat. replace ((0 <=? _) && _) with true by (symmetry; apply andb_true_iff; lia). f_equal. apply skipn_all2. rewrite app_length. change (length (zeros 16)) with 16%nat. lia. }
  rewrite F. cbn [bind]. rewrite Uw. cbn [bind]. rewrite Uh. cbn [bind]. rewrite Us. cbn [bind]. rewrite Sl. cbn [bind]. change (find_hint (set_orientation o cam)) with (find_hint cam). rewrite N1, N2.
  rewrite (proj2 (Props_Packed.C49_words_refuted w h ltac:(assumption) Hh)). cbn [bind]. rewrite Wb. exact I1.
Qed.
End Any.
