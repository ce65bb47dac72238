(** Whole files with compressed samples, and files from Olympus, Panasonic and
    Nikon (C53). *)
From Coq Require Import String Ascii ZArith List Bool Reals Lia.
From Flocq Require Import Core BinarySingleNaN.
From Verif Require Import Base Num F32 Bytes Pumps Packed Tiff Transform Image Camera Clients Decoder Dec_Simple Dec_Pred Dec_Nef Dispatch.
From Verif Require Import Spec_Bits Spec_Image Spec_Pump Spec_Stream Spec_Packed Spec_Tiff Spec_Camera Spec_Known Spec_Huffman Spec_Ljpeg Spec_Pred Spec_Orf Spec_Meta Spec_File.
From Verif Require Import P_Base P_Bits P_F32 P_Tiff3 P_Tiff5 P_Packed5 P_Black P_Meta1 P_Meta2 P_File1 P_File2.
From Verif Require Props_Packed Props_Pred Props_Pred3.
Import ListNotations.
Local Open Scope Z_scope.

(** The sixteen zeros behind the file are more than enough for the readers. *)
Lemma padded_stream : forall data, exists n, (104 <= n)%nat /\ stream MSB (data ++ zeros 16) 0 = bits_of data ++ repeat false n.
Proof.
  intros data. cbn [stream]. unfold whole_words. rewrite firstn_app. set (k := (4 * (length (data ++ zeros 16) / 4))%nat).
  assert (Lz : length (zeros 16) = 16%nat) by reflexivity.
  assert (Hk : (length data + 13 <= k <= length data + 16)%nat).
  { unfold k. rewrite app_length, Lz. pose proof (Nat.div_mod (length data + 16) 4 ltac:(lia)) as D. pose proof (Nat.mod_upper_bound (length data + 16) 4 ltac:(lia)). lia. }
  rewrite firstn_all2 by lia. rewrite bits_of_app. exists (8 * (k - length data))%nat. split; [lia|]. f_equal.
  remember (k - length data)%nat as m eqn:Em. assert (m <= 16)%nat by lia. clear - H.
  do 17 (destruct m as [|m]; [reflexivity|]). lia.
Qed.

Section Any.
Context {M : Mode} (powf : f32 -> f32 -> f32) (parse_f32 : string -> option f32).
Variables (db : list table) (l : loader).
Hypothesis Hl : loader_new db = Ok l.

Ltac enter G := eapply lib_decodes; [exact Hl|]; unfold decode; rewrite G; cbn [bind decoder_image].

Lemma pef_compressed_file : forall big fs make model gap data file w h o cam pic rest r g1 g2 b blacks, In make ["PENTAX"; "PENTAX Corporation"; "RICOH IMAGING COMPANY, LTD."]%string ->
  photo l "" big fs make model T_StripOffsets gap data file o cam ->
  has_number fs T_ImageWidth w -> has_number fs T_ImageLength h -> 0 < w -> Z.even w = true ->
  has_number fs T_Compression 65535 -> has_no fs T_PefHuffman ->
  sample_picture pic w h -> (forall r c, 0 <= r < h -> 0 <= c < w -> Z.abs (step_of (fun _ _ => 0) pic r c) < 4096) ->
  bits_of data = steps_coded (fun _ => code_of pentax_code) (fun _ _ => 0) pic w h ++ rest ->
  has_numbers fs T_PefWB [r; g1; g2; b] ->
  has_no fs T_PefBlackLevels /\ blacks = c_blacks cam \/
   (exists b0 b1 b2 b3, has_numbers fs T_PefBlackLevels [b0; b1; b2; b3] /\ Forall (fun v => v < 2 ^ 16) [b0; b1; b2; b3] /\ blacks = V4 b0 b1 b2 b3) ->
  exists img, lib_decode powf parse_f32 db file = Ok img /\ shows img cam o w h /\ is_image (i_data img) w h pic /\ i_blacks img = blacks /\ balance img r g1 b.
Proof.
  intros big fs make model gap data file w h o cam pic rest r g1 g2 b blacks Hm Hp Tw Th Hw He Hc Hh Hs1 Hs2 Hd Hwb Hk.
  assert (Lm : lookup_make makes make = Some PEF) by (destruct Hm as [<-|[<-|[<-|[]]]]; reflexivity).
  destruct (photo_opened _ _ _ _ _ _ _ _ _ _ _ _ PEF Hp Lm) as (root & sub & [G P (off & O1 & O2 & O3) C B N]).
  destruct (size_read _ _ _ _ _ _ P Tw) as [W Rw]. destruct (size_read _ _ _ _ _ _ P Th) as [H Rh].
  destruct (padded_stream data) as (n & Hn & En). rewrite Hd, <- app_assoc in En.
  destruct (Props_Pred.C47_pentax root (data ++ zeros 16) w h pic (rest ++ repeat false n) (proj1 (p_none _ _ _ _ P _ Hh)) Hw He (proj1 Rh) Hs1 Hs2) as (out & D1 & D2).
  - split; [exact B|discriminate].
  - exact En.
  - rewrite app_length, repeat_length. lia.
  - destruct (pef_rest big fs root sub cam o out w h r g1 g2 b blacks P N Hwb Hk) as (img & I1 & I2 & I3 & I4).
    exists img. rewrite I3. split; [|auto]. enter G. unfold pef_image, check_supported. rewrite C. cbn [bind].
    assert (Hs : In T_StripOffsets (map f_tag fs)) by (eapply number_tag; exact (rf_start _ _ _ _ _ _ _ _ (ph_file _ _ _ _ _ _ _ _ _ _ _ _ Hp))).
    rewrite (ifd_found _ _ _ _ _ P Hs). cbn [bind]. rewrite W, H, O2. cbn [bind]. rewrite O3. cbn [bind].
    rewrite (proj2 (usize_read _ _ _ _ _ _ P Hc)). cbn [bind Z.eqb Pos.eqb]. rewrite D1. exact I1.
Qed.

(** ** Olympus *)
Lemma olympus_make : forall make, In make ["OLYMPUS IMAGING CORP."; "OLYMPUS CORPORATION"; "OLYMPUS OPTICAL CO.,LTD"]%string -> lookup_make makes make = Some ORF.
Proof. intros make [<-|[<-|[<-|[]]]]; reflexivity. Qed.
Lemma orf_wb_read : forall big fs root sub buf r r' b b', Parsed big fs root sub -> has_numbers fs T_OlympusRedMul (r :: r') -> has_numbers fs T_OlympusBlueMul (b :: b') ->
  orf_wb buf root = Ok (V4 (f32_of r) (flit 256 1) (f32_of b) NAN) /\ 0 <= r < 2 ^ 32 /\ 0 <= b < 2 ^ 32.
Proof.
  intros big fs root sub buf r r' b b' P Hr Hb. destruct (numbers_found _ _ _ _ _ _ P Hr) as (e1 & A1 & _ & _ & A2). destruct (numbers_found _ _ _ _ _ _ P Hb) as (e2 & B1 & _ & _ & B2).
  destruct (A2 O r eq_refl) as (A3 & _ & A4). destruct (B2 O b eq_refl) as (B3 & _ & B4). change (Z.of_nat 0) with 0 in A3, B3.
  split; [|auto]. unfold orf_wb. rewrite A1, B1, A3, B3. reflexivity.
Qed.
Lemma near_256 : nearest (flit 256 1) (IZR 256).
Proof.
  destruct (of_exact 256 ltac:(lia)) as [Fa [Va _]]. destruct (of_exact 1 ltac:(lia)) as [_ [Vb _]].
  assert (Q : (B2R (f32_of 256) / B2R (f32_of 1))%R = IZR 256) by (rewrite Va, Vb; unfold Rdiv; rewrite Rinv_1; apply Rmult_1_r).
  destruct (div_val (f32_of 256) (f32_of 1) Fa) as [F V]; [rewrite Vb; apply not_0_IZR; lia|rewrite Q, <- abs_IZR; apply IZR_le; lia|].
  apply rn_near; [exact F|]. unfold flit, fdiv. rewrite V, Q. reflexivity.
Qed.
Lemma total_snoc : forall vs n v, nth_error vs n = Some v -> total (firstn (S n) vs) = total (firstn n vs) + v.
Proof.
  induction vs as [|x vs IH]; intros [|n] v E; try discriminate E; cbn [nth_error] in E; [injection E as ->; cbn; lia|].
  change (firstn (S (S n)) (x :: vs)) with (x :: firstn (S n) vs). change (firstn (S n) (x :: vs)) with (x :: firstn n vs).
  unfold total in *. cbn [fold_right]. rewrite (IH n v E). lia.
Qed.
Lemma counts_total : forall en vs, e_count en = Z.of_nat (length vs) -> (forall k v, nth_error vs k = Some v -> get_u32 en (Z.of_nat k) = Ok v) ->
  rfold (fun i size => v <- get_u32 en i ;; Ok (size + v)) (zrange 0 (e_count en)) 0 = Ok (total vs).
Proof.
  intros en vs Hc Hv. rewrite Hc.
  destruct (rfold_zrange (fun i size => v <- get_u32 en i ;; Ok (size + v)) (fun i s => s = total (firstn (Z.to_nat i) vs)) 0 (Z.of_nat (length vs)) 0) as (s & E & ->); [lia|reflexivity| |].
  - intros i s Hi ->. destruct (nth_error vs (Z.to_nat i)) as [v|] eqn:En; [|apply nth_error_None in En; lia].
    pose proof (Hv _ _ En) as Q. rewrite Z2Nat.id in Q by lia. rewrite Q. cbn [bind]. eexists. split; [reflexivity|].
    replace (Z.to_nat (i + 1)) with (S (Z.to_nat i)) by lia. symmetry. apply total_snoc. exact En.
  - rewrite E, Nat2Z.id, firstn_all. reflexivity.
Qed.
Lemma orf_file : forall big fs make model gap data file w h o cam samples rest counts r r' b b',
  In make ["OLYMPUS IMAGING CORP."; "OLYMPUS CORPORATION"; "OLYMPUS OPTICAL CO.,LTD"]%string ->
  photo l "" big fs make model T_StripOffsets gap data file o cam ->
  has_number fs T_ImageWidth w -> has_number fs T_ImageLength h -> 0 < w ->
  has_numbers fs T_StripByteCounts counts -> 2 * w * h <= total counts ->
  data = pack16 big (map (fun v => 16 * v) samples) ++ rest -> Z.of_nat (length samples) = w * h -> Forall (Spec_Packed.fits 12) samples ->
  has_numbers fs T_OlympusRedMul (r :: r') -> has_numbers fs T_OlympusBlueMul (b :: b') ->
  exists img, lib_decode powf parse_f32 db file = Ok img /\ shows img cam o w h /\ i_data img = samples /\ i_blacks img = c_blacks cam /\ balance img r 256 b.
Proof.
  intros big fs make model gap data file w h o cam samples rest counts r r' b b' Hm Hp Tw Th Hw Tc Hc Hd Hn Hs Hr Hb.
  destruct (photo_opened _ _ _ _ _ _ _ _ _ _ _ _ ORF Hp (olympus_make _ Hm)) as (root & sub & [G P (off & O1 & O2 & O3) C B N]).
  destruct (size_read _ _ _ _ _ _ P Tw) as [W Rw]. destruct (size_read _ _ _ _ _ _ P Th) as [H Rh].
  destruct (orf_wb_read _ _ _ _ (buffer_new file) _ _ _ _ P Hr Hb) as (Wb & R1 & R2).
  destruct (numbers_found _ _ _ _ _ _ P Tc) as (en & _ & E1 & E2 & E3).
  destruct (finished cam o w h (V4 (f32_of r) (flit 256 1) (f32_of b) NAN) samples N) as (img & I1 & I2 & I3 & I4 & I5).
  exists img. split; [|split; [exact I2|split; [exact I3|split; [exact I4|]]]].
  - enter G. unfold orf_image, check_supported. rewrite C. cbn [bind].
    assert (Hs0 : In T_StripOffsets (map f_tag fs)) by (eapply number_tag; exact (rf_start _ _ _ _ _ _ _ _ (ph_file _ _ _ _ _ _ _ _ _ _ _ _ Hp))).
    rewrite (ifd_found _ _ _ _ _ P Hs0). cbn [bind]. rewrite W, H, O2. cbn [bind]. unfold fetch_tag at 1. rewrite E1. cbn [bind].
    rewrite (counts_total en counts E2) by (intros k v Hk; apply (E3 k v Hk)). cbn [bind]. rewrite O3. cbn [bind].
    replace (w * h * 2 <=? total counts) with true by lia. rewrite (proj1 (p_end _ _ _ _ P)). subst data. rewrite <- app_assoc in *. apply Forall_app in B. destruct B as [_ B].
    destruct big; cbn [little negb].
    + rewrite Props_Packed.C06_12be_left_in_16; [|lia|lia|exact Hn|exact Hs|exact B]. cbn [bind]. rewrite Wb. exact I1.
    + rewrite Props_Packed.C06_12le_left_in_16; [|lia|lia|exact Hn|exact Hs|exact B]. cbn [bind]. rewrite Wb. exact I1.
  - unfold balance. rewrite I5. cbn [e0 e1 e2 e3]. repeat split; try (apply number_near; assumption); try apply near_256.
Qed.
Lemma orf_compressed_file : forall big fs make model gap head data file w h o cam pic rest counts r r' b b',
  In make ["OLYMPUS IMAGING CORP."; "OLYMPUS CORPORATION"; "OLYMPUS OPTICAL CO.,LTD"]%string ->
  photo l "" big fs make model T_StripOffsets gap (head ++ data) file o cam ->
  has_number fs T_ImageWidth w -> has_number fs T_ImageLength h -> 0 < w < 2 ^ 31 -> w mod 2 = 0 ->
  has_numbers fs T_StripByteCounts counts -> total counts < w * h / 10 * 16 -> total counts < w * h * 12 / 8 ->
  (forall r c, 0 <= r < h -> 0 <= c < w -> 0 <= pic r c < 2 ^ 15) -> orf_fits pic w h ->
  length head = 7%nat -> bits_of data = orf_coded pic w h ++ rest ->
  has_numbers fs T_OlympusRedMul (r :: r') -> has_numbers fs T_OlympusBlueMul (b :: b') ->
  exists img, lib_decode powf parse_f32 db file = Ok img /\ shows img cam o w h /\ is_image (i_data img) w h pic /\ i_blacks img = c_blacks cam /\ balance img r 256 b.
Proof.
  intros big fs make model gap head data file w h o cam pic rest counts r r' b b' Hm Hp Tw Th Hw He Tc Hc1 Hc2 Hs1 Hs2 Lh Hd Hr Hb.
  destruct (photo_opened _ _ _ _ _ _ _ _ _ _ _ _ ORF Hp (olympus_make _ Hm)) as (root & sub & [G P (off & O1 & O2 & O3) C B N]).
  destruct (size_read _ _ _ _ _ _ P Tw) as [W Rw]. destruct (size_read _ _ _ _ _ _ P Th) as [H Rh].
  destruct (orf_wb_read _ _ _ _ (buffer_new file) _ _ _ _ P Hr Hb) as (Wb & R1 & R2).
  destruct (numbers_found _ _ _ _ _ _ P Tc) as (en & _ & E1 & E2 & E3).
  destruct (padded_stream data) as (n & Hn & En). rewrite Hd, <- app_assoc in En.
  destruct (Props_Pred3.C47_olympus pic w h Hw (proj1 Rh) He Hs1 Hs2 ((head ++ data) ++ zeros 16) (rest ++ repeat false n)) as (out & D1 & D2).
  - rewrite !app_length. lia.
  - exact B.
  - rewrite <- app_assoc, <- Lh, skipn_app, Nat.sub_diag, skipn_all. exact En.
  - rewrite app_length, repeat_length. lia.
  - destruct (finished cam o w h (V4 (f32_of r) (flit 256 1) (f32_of b) NAN) out N) as (img & I1 & I2 & I3 & I4 & I5).
    exists img. rewrite I3. split; [|split; [exact I2|split; [exact D2|split; [exact I4|]]]].
    + enter G. unfold orf_image, check_supported. rewrite C. cbn [bind].
      assert (Hs0 : In T_StripOffsets (map f_tag fs)) by (eapply number_tag; exact (rf_start _ _ _ _ _ _ _ _ (ph_file _ _ _ _ _ _ _ _ _ _ _ _ Hp))).
      rewrite (ifd_found _ _ _ _ _ P Hs0). cbn [bind]. rewrite W, H, O2. cbn [bind]. unfold fetch_tag at 1. rewrite E1. cbn [bind].
      rewrite (counts_total en counts E2) by (intros k v Hk; apply (E3 k v Hk)). cbn [bind]. rewrite O3. cbn [bind].
      assert (w * h * 12 / 8 <= w * h * 2) by (apply Z.div_le_upper_bound; nia).
      replace (w * h * 2 <=? total counts) with false by lia. replace (w * h / 10 * 16 <=? total counts) with false by lia. replace (w * h * 12 / 8 <=? total counts) with false by lia.
      rewrite D1. cbn [bind]. rewrite Wb. exact I1.
    + unfold balance. rewrite I5. cbn [e0 e1 e2 e3]. repeat split; try (apply number_near; assumption); try apply near_256.
Qed.
End Any.
