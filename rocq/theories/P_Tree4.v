(** Whole files with nested directories (C59): Mamiya, Pentax, Olympus. *)
From Coq Require Import String Ascii ZArith List Bool Reals Lia.
From Flocq Require Import Core BinarySingleNaN.
From Verif Require Import Base Num F32 Bytes Pumps Packed Tiff Transform Image Camera Clients Decoder Dec_Simple Dec_Pred Dec_Nef Dispatch.
From Verif Require Import Spec_Bits Spec_Image Spec_Pump Spec_Stream Spec_Packed Spec_Tiff Spec_Camera Spec_Known Spec_Huffman Spec_Ljpeg Spec_Pred Spec_Orf Spec_Nikon Spec_Curve Spec_Pana Spec_Meta Spec_File Spec_Tree.
From Verif Require Import P_Base P_Bits P_F32 P_Tiff3 P_Tiff5 P_Packed5 P_Black P_Meta1 P_Meta2 P_File1 P_File2 P_File3 P_File4 P_Tree1 P_Tree2 P_Tree3.
From Verif Require Props_Packed Props_Pred Props_Pred3.
Import ListNotations.
Local Open Scope Z_scope.

Section Any.
Context {M : Mode} (powf : f32 -> f32 -> f32) (parse_f32 : string -> option f32).
Variables (db : list table) (l : loader).
Hypothesis Hl : loader_new db = Ok l.
Ltac enter G := eapply lib_decodes; [exact Hl|]; unfold decode; rewrite G; cbn [bind decoder_image].
Ltac picture Hp Hd := destruct (pictured _ _ _ _ _ _ _ _ _ _ _ _ ltac:(eassumption) (tf_bytes _ _ _ (np_file _ _ _ _ _ _ _ _ _ Hp)) Hd) as (sub & [F1 F2 S2 [W Rw] [H Rh] (off & O2 & O3 & O4) B]).

(** ** Mamiya *)
Lemma mef_nested : forall big ts raw model samples rest file w h o cam,
  nested_photo l "" big ts "Mamiya-OP Co.,Ltd." model file o cam ->
  picture_at ts file T_CFAPattern T_ImageWidth T_ImageLength T_StripOffsets raw w h (pack 12 samples ++ rest) ->
  0 < w -> Z.even w = true -> Z.of_nat (length samples) = w * h -> Forall (Spec_Packed.fits 12) samples ->
  exists img, lib_decode powf parse_f32 db file = Ok img /\ shows img cam o w h /\ i_data img = samples /\ i_blacks img = c_blacks cam.
Proof.
  intros big ts raw model samples rest file w h o cam Hp Hd Hw He Hn Hs. destruct (nested_opened _ _ _ _ _ _ _ _ _ MEF Hp eq_refl) as (root & [G P C N]). picture Hp Hd.
  destruct (finished cam o w h nans samples N) as (img & I1 & I2 & I3 & I4 & _).
  exists img. split; [|auto]. enter G. unfold mef_image, check_supported.
  rewrite C. cbn [bind]. rewrite F2. cbn [bind]. rewrite W, H, O2. cbn [bind]. rewrite O3. cbn [bind].
  rewrite <- app_assoc in *. apply Forall_app in B.
  rewrite Props_Packed.C06_12be; [exact I1|lia|apply even_mod; exact He|lia|exact Hn|exact Hs|exact (proj2 B)].
Qed.

(** ** Pentax *)
Lemma pef_blacks_seen : forall big fs root cam o blacks, Sees big fs root -> pentax_blacks fs cam blacks -> pef_blacks root (c_blacks (set_orientation o cam)) = Ok blacks.
Proof.
  intros big fs root cam o blacks P Hk. unfold pef_blacks. destruct Hk as [[N ->]|(b0 & b1 & b2 & b3 & Hk & Hv & ->)].
  - rewrite (s_no _ _ _ P _ N). reflexivity.
  - destruct (see_numbers _ _ _ _ _ P Hk) as (en' & F1 & _ & V). rewrite F1.
    destruct (V 0%nat b0 eq_refl) as (_ & X0 & Y0). destruct (V 1%nat b1 eq_refl) as (_ & X1 & Y1). destruct (V 2%nat b2 eq_refl) as (_ & X2 & Y2). destruct (V 3%nat b3 eq_refl) as (_ & X3 & Y3).
    change (Z.of_nat 0) with 0 in X0. change (Z.of_nat 1) with 1 in X1. change (Z.of_nat 2) with 2 in X2. change (Z.of_nat 3) with 3 in X3. rewrite X0, X1, X2, X3. cbn [bind].
    inversion Hv as [|? ? Z0 Hv1]; subst. inversion Hv1 as [|? ? Z1 Hv2]; subst. inversion Hv2 as [|? ? Z2 Hv3]; subst. inversion Hv3 as [|? ? Z3 _]; subst.
    rewrite !level_exact by lia. reflexivity.
Qed.
Lemma pef_seen : forall big fs root cam o image w h r g1 g2 b blacks, Sees big fs root -> no_black_area cam ->
  has_numbers fs T_PefWB [r; g1; g2; b] -> pentax_blacks fs cam blacks ->
  exists img, (blacks <- pef_blacks root (c_blacks (set_orientation o cam)) ;;
     levels <- fetch_tag root T_PefWB ;; r <- get_f32 levels 0 ;; g <- get_f32 levels 1 ;; b <- get_f32 levels 3 ;;
     ok_image_with_blacklevels (set_orientation o cam) w h (V4 r g b NAN) blacks image) = Ok img /\
    shows img cam o w h /\ i_data img = image /\ i_blacks img = blacks /\ balance img r g1 b.
Proof.
  intros big fs root cam o image w h r g1 g2 b blacks P Hb Hw Hk.
  destruct (see_numbers _ _ _ _ _ P Hw) as (en & E1 & _ & V).
  destruct (V 0%nat r eq_refl) as (_ & R1 & R2). destruct (V 1%nat g1 eq_refl) as (_ & G1 & G2). destruct (V 3%nat b eq_refl) as (_ & B1 & B2).
  change (Z.of_nat 0) with 0 in R1. change (Z.of_nat 1) with 1 in G1. change (Z.of_nat 3) with 3 in B1. clear V.
  rewrite (pef_blacks_seen _ _ _ _ o _ P Hk). unfold fetch_tag. rewrite E1. cbn [bind]. rewrite R1, G1, B1. cbn [bind].
  destruct (finished cam o w h (V4 (f32_of r) (f32_of g1) (f32_of b) NAN) image Hb) as (img & I1 & [S1 S2 S3 S4 S5 S6] & I3 & I4 & I5).
  unfold ok_image_with_blacklevels. rewrite I1. cbn [bind]. eexists. split; [reflexivity|]. split; [|split; [exact I3|split; [reflexivity|]]].
  - destruct S4. split; cbn [img_set_blacks i_width i_height i_cpp i_crops i_orientation]; try assumption. split; assumption.
  - unfold balance, img_set_blacks. cbn [i_wb]. rewrite I5. cbn [e0 e1 e2 e3]. repeat (split; [apply number_near; assumption|]). reflexivity.
Qed.
Lemma pentax_make : forall make, In make ["PENTAX"; "PENTAX Corporation"; "RICOH IMAGING COMPANY, LTD."]%string -> lookup_make makes make = Some PEF.
Proof. intros make [<-|[<-|[<-|[]]]]; reflexivity. Qed.
Lemma pef_nested : forall big ts raw make model data file w h o cam samples rest r g1 g2 b blacks, In make ["PENTAX"; "PENTAX Corporation"; "RICOH IMAGING COMPANY, LTD."]%string ->
  nested_photo l "" big ts make model file o cam ->
  picture_at ts file T_StripOffsets T_ImageWidth T_ImageLength T_StripOffsets raw w h data -> 0 < w -> Z.of_nat (length samples) = w * h ->
  has_number (visible [raw]) T_Compression 1 /\ data = pack16 true samples ++ rest /\ Forall (Spec_Packed.fits 16) samples \/
  has_number (visible [raw]) T_Compression 32773 /\ data = pack 12 samples ++ rest /\ Forall (Spec_Packed.fits 12) samples /\ Z.even w = true ->
  has_numbers (visible ts) T_PefWB [r; g1; g2; b] -> pentax_blacks (visible ts) cam blacks ->
  exists img, lib_decode powf parse_f32 db file = Ok img /\ shows img cam o w h /\ i_data img = samples /\ i_blacks img = blacks /\ balance img r g1 b.
Proof.
  intros big ts raw make model data file w h o cam samples rest r g1 g2 b blacks Hm Hp Hd Hw Hn Hc Hwb Hk.
  destruct (nested_opened _ _ _ _ _ _ _ _ _ PEF Hp (pentax_make _ Hm)) as (root & [G P C N]). picture Hp Hd.
  destruct (pef_seen big (visible ts) root cam o samples w h r g1 g2 b blacks (n_sees _ _ _ P) N Hwb Hk) as (img & I1 & I2).
  exists img. split; [|exact I2]. enter G. unfold pef_image, check_supported. rewrite C. cbn [bind].
  rewrite F2. cbn [bind]. rewrite W, H, O2. cbn [bind]. rewrite O3. cbn [bind].
  destruct Hc as [(Hc & -> & Hs2)|(Hc & -> & Hs2 & He)]; rewrite (proj1 (see_usize _ _ _ _ _ S2 Hc)); cbn [bind Z.eqb Pos.eqb];
    rewrite <- app_assoc in *; apply Forall_app in B.
  - rewrite Props_Packed.C06_16be; [exact I1|lia|lia|exact Hn|exact Hs2|exact (proj2 B)].
  - rewrite Props_Packed.C06_12be; [exact I1|lia|apply even_mod; exact He|lia|exact Hn|exact Hs2|exact (proj2 B)].
Qed.
Lemma pef_compressed_nested : forall big ts raw make model data file w h o cam pic rest r g1 g2 b blacks, In make ["PENTAX"; "PENTAX Corporation"; "RICOH IMAGING COMPANY, LTD."]%string ->
  nested_photo l "" big ts make model file o cam ->
  picture_at ts file T_StripOffsets T_ImageWidth T_ImageLength T_StripOffsets raw w h data -> 0 < w -> Z.even w = true ->
  has_number (visible [raw]) T_Compression 65535 -> has_no (visible ts) T_PefHuffman ->
  sample_picture pic w h -> (forall r c, 0 <= r < h -> 0 <= c < w -> Z.abs (step_of (fun _ _ => 0) pic r c) < 4096) ->
  bits_of data = steps_coded (fun _ => code_of pentax_code) (fun _ _ => 0) pic w h ++ rest ->
  has_numbers (visible ts) T_PefWB [r; g1; g2; b] -> pentax_blacks (visible ts) cam blacks ->
  exists img, lib_decode powf parse_f32 db file = Ok img /\ shows img cam o w h /\ is_image (i_data img) w h pic /\ i_blacks img = blacks /\ balance img r g1 b.
Proof.
  intros big ts raw make model data file w h o cam pic rest r g1 g2 b blacks Hm Hp Hd0 Hw He Hc Hh Hs1 Hs2 Hd Hwb Hk.
  destruct (nested_opened _ _ _ _ _ _ _ _ _ PEF Hp (pentax_make _ Hm)) as (root & [G P C N]). picture Hp Hd0.
  destruct (padded_stream data) as (n & Hn & En). rewrite Hd, <- app_assoc in En.
  destruct (Props_Pred.C47_pentax root (data ++ zeros 16) w h pic (rest ++ repeat false n) (s_no _ _ _ (n_sees _ _ _ P) _ Hh) Hw He (proj1 Rh) Hs1 Hs2) as (out & D1 & D2).
  - split; [exact B|discriminate].
  - exact En.
  - rewrite app_length, repeat_length. lia.
  - destruct (pef_seen big (visible ts) root cam o out w h r g1 g2 b blacks (n_sees _ _ _ P) N Hwb Hk) as (img & I1 & I2 & I3 & I4).
    exists img. rewrite I3. split; [|auto]. enter G. unfold pef_image, check_supported. rewrite C. cbn [bind].
    rewrite F2. cbn [bind]. rewrite W, H, O2. cbn [bind]. rewrite O3. cbn [bind].
    rewrite (proj1 (see_usize _ _ _ _ _ S2 Hc)). cbn [bind Z.eqb Pos.eqb]. rewrite D1. exact I1.
Qed.

(** ** Olympus *)
Lemma orf_wb_seen : forall big fs root buf r r' b b', Sees big fs root -> has_numbers fs T_OlympusRedMul (r :: r') -> has_numbers fs T_OlympusBlueMul (b :: b') ->
  orf_wb buf root = Ok (V4 (f32_of r) (flit 256 1) (f32_of b) NAN) /\ 0 <= r < 2 ^ 32 /\ 0 <= b < 2 ^ 32.
Proof.
  intros big fs root buf r r' b b' P Hr Hb. destruct (see_numbers _ _ _ _ _ P Hr) as (e1 & A1 & _ & A2). destruct (see_numbers _ _ _ _ _ P Hb) as (e2 & B1 & _ & B2).
  destruct (A2 O r eq_refl) as (A3 & _ & A4). destruct (B2 O b eq_refl) as (B3 & _ & B4). change (Z.of_nat 0) with 0 in A3, B3.
  split; [|auto]. unfold orf_wb. rewrite A1, B1, A3, B3. reflexivity.
Qed.
Lemma orf_nested : forall big ts raw make model data file w h o cam samples rest counts r r' b b',
  In make ["OLYMPUS IMAGING CORP."; "OLYMPUS CORPORATION"; "OLYMPUS OPTICAL CO.,LTD"]%string ->
  nested_photo l "" big ts make model file o cam ->
  picture_at ts file T_StripOffsets T_ImageWidth T_ImageLength T_StripOffsets raw w h data -> 0 < w ->
  has_numbers (visible [raw]) T_StripByteCounts counts -> 2 * w * h <= total counts ->
  data = pack16 big (map (fun v => 16 * v) samples) ++ rest -> Z.of_nat (length samples) = w * h -> Forall (Spec_Packed.fits 12) samples ->
  has_numbers (visible ts) T_OlympusRedMul (r :: r') -> has_numbers (visible ts) T_OlympusBlueMul (b :: b') ->
  exists img, lib_decode powf parse_f32 db file = Ok img /\ shows img cam o w h /\ i_data img = samples /\ i_blacks img = c_blacks cam /\ balance img r 256 b.
Proof.
  intros big ts raw make model data file w h o cam samples rest counts r r' b b' Hm Hp Hd0 Hw Tc Hc Hd Hn Hs Hr Hb.
  destruct (nested_opened _ _ _ _ _ _ _ _ _ ORF Hp (olympus_make _ Hm)) as (root & [G P C N]). picture Hp Hd0.
  destruct (orf_wb_seen _ _ _ (buffer_new file) _ _ _ _ (n_sees _ _ _ P) Hr Hb) as (Wb & R1 & R2).
  destruct (see_numbers _ _ _ _ _ S2 Tc) as (en & E1 & E2 & E3).
  destruct (finished cam o w h (V4 (f32_of r) (flit 256 1) (f32_of b) NAN) samples N) as (img & I1 & I2 & I3 & I4 & I5).
  exists img. split; [|split; [exact I2|split; [exact I3|split; [exact I4|]]]].
  - enter G. unfold orf_image, check_supported. rewrite C. cbn [bind].
    rewrite F2. cbn [bind]. rewrite W, H, O2. cbn [bind]. unfold fetch_tag at 1. rewrite E1. cbn [bind].
    rewrite (counts_total en counts E2) by (intros k v Hk; apply (E3 k v Hk)). cbn [bind]. rewrite O3. cbn [bind].
    replace (w * h * 2 <=? total counts) with true by lia. rewrite (n_end _ _ _ P). subst data. rewrite <- app_assoc in *. apply Forall_app in B. destruct B as [_ B].
    destruct big; cbn [Bytes.little negb].
    + rewrite Props_Packed.C06_12be_left_in_16; [|lia|lia|exact Hn|exact Hs|exact B]. cbn [bind]. rewrite Wb. exact I1.
    + rewrite Props_Packed.C06_12le_left_in_16; [|lia|lia|exact Hn|exact Hs|exact B]. cbn [bind]. rewrite Wb. exact I1.
  - unfold balance. rewrite I5. cbn [e0 e1 e2 e3]. repeat split; try (apply number_near; assumption); try apply near_256.
Qed.
Lemma orf_compressed_nested : forall big ts raw make model head data file w h o cam pic rest counts r r' b b',
  In make ["OLYMPUS IMAGING CORP."; "OLYMPUS CORPORATION"; "OLYMPUS OPTICAL CO.,LTD"]%string ->
  nested_photo l "" big ts make model file o cam ->
  picture_at ts file T_StripOffsets T_ImageWidth T_ImageLength T_StripOffsets raw w h (head ++ data) -> 0 < w < 2 ^ 31 -> w mod 2 = 0 ->
  has_numbers (visible [raw]) T_StripByteCounts counts -> total counts < w * h / 10 * 16 -> total counts < w * h * 12 / 8 ->
  (forall r c, 0 <= r < h -> 0 <= c < w -> 0 <= pic r c < 2 ^ 15) -> orf_fits pic w h ->
  length head = 7%nat -> bits_of data = orf_coded pic w h ++ rest ->
  has_numbers (visible ts) T_OlympusRedMul (r :: r') -> has_numbers (visible ts) T_OlympusBlueMul (b :: b') ->
  exists img, lib_decode powf parse_f32 db file = Ok img /\ shows img cam o w h /\ is_image (i_data img) w h pic /\ i_blacks img = c_blacks cam /\ balance img r 256 b.
Proof.
  intros big ts raw make model head data file w h o cam pic rest counts r r' b b' Hm Hp Hd0 Hw He Tc Hc1 Hc2 Hs1 Hs2 Lh Hd Hr Hb.
  destruct (nested_opened _ _ _ _ _ _ _ _ _ ORF Hp (olympus_make _ Hm)) as (root & [G P C N]). picture Hp Hd0.
  destruct (orf_wb_seen _ _ _ (buffer_new file) _ _ _ _ (n_sees _ _ _ P) Hr Hb) as (Wb & R1 & R2).
  destruct (see_numbers _ _ _ _ _ S2 Tc) as (en & E1 & E2 & E3).
  destruct (padded_stream data) as (n & Hn & En). rewrite Hd, <- app_assoc in En.
  destruct (Props_Pred3.C47_olympus pic w h Hw (proj1 Rh) He Hs1 Hs2 ((head ++ data) ++ zeros 16) (rest ++ repeat false n)) as (out & D1 & D2).
  - rewrite !app_length. lia.
  - exact B.
  - rewrite <- app_assoc, <- Lh, skipn_app, Nat.sub_diag, skipn_all. exact En.
  - rewrite app_length, repeat_length. lia.
  - destruct (finished cam o w h (V4 (f32_of r) (flit 256 1) (f32_of b) NAN) out N) as (img & I1 & I2 & I3 & I4 & I5).
    exists img. rewrite I3. split; [|split; [exact I2|split; [exact D2|split; [exact I4|]]]].
    + enter G. unfold orf_image, check_supported. rewrite C. cbn [bind].
      rewrite F2. cbn [bind]. rewrite W, H, O2. cbn [bind]. unfold fetch_tag at 1. rewrite E1. cbn [bind].
      rewrite (counts_total en counts E2) by (intros k v Hk; apply (E3 k v Hk)). cbn [bind]. rewrite O3. cbn [bind].
      assert (w * h * 12 / 8 <= w * h * 2) by (apply Z.div_le_upper_bound; nia).
      replace (w * h * 2 <=? total counts) with false by lia. replace (w * h / 10 * 16 <=? total counts) with false by lia. replace (w * h * 12 / 8 <=? total counts) with false by lia.
      rewrite D1. cbn [bind]. rewrite Wb. exact I1.
    + unfold balance. rewrite I5. cbn [e0 e1 e2 e3]. repeat split; try (apply number_near; assumption); try apply near_256.
Qed.
End Any.
