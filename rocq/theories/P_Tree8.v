(** DNG files whose picture is described in one of several directories (C60):
    whole files. *)
From Coq Require Import String Ascii ZArith List Bool Reals Lia ZifyBool ZifyNat.
From Flocq Require Import Core BinarySingleNaN.
From Verif Require Import Base Num F32 Bytes Pumps Cfa Packed Threads Ljpeg Tiff Transform Image Camera Clients Decoder Dec_Ljpeg Dispatch.
From Verif Require Import Spec_Bits Spec_Image Spec_Stream Spec_Packed Spec_Cfa Spec_Tiff Spec_Camera Spec_Known Spec_Huffman Spec_Ljpeg Spec_Curve Spec_Meta Spec_File Spec_Dng Spec_Tree Spec_TreeDng.
From Verif Require Import P_Base P_Bits P_F32 P_Threads P_Tiff3 P_Tiff5 P_File1 P_File2 P_File4 P_Dng1 P_Dng2 P_Dng3 P_Tree2 P_Tree3 P_Tree7.
From Verif Require Props_Packed Props_Ljpeg.
Import ListNotations.
Local Open Scope Z_scope.

Section Any.
Context {M : Mode}.
Lemma nested_names : forall big fs make model i l o, Sees big fs i -> names fs make model -> has_orientation fs o ->
  exists a b c d, dng_names l i = Ok (a, b, c, d, o) /\
    (a, b, c, d) = match find_camera l make model "" with
                   | Some cam => (c_make cam, c_model cam, c_clean_make cam, c_clean_model cam)
                   | None => (make, model, make, model)
                   end.
Proof.
  intros big fs make model i l o P C Ho. unfold dng_names, check_supported. destruct (find_camera l make model "") as [cam|] eqn:Ec.
  - rewrite (see_camera _ _ _ _ _ _ _ _ _ P C Ho Ec). repeat eexists.
  - destruct C as [C1 C2 C3 C4].
    destruct (see_text _ _ _ _ _ P C1 C2) as (en & E1 & E2). destruct (see_text _ _ _ _ _ P C3 C4) as (en' & E3 & E4).
    unfold check_supported_with_mode, fetch_tag. rewrite E1. cbn [bind]. rewrite E2. cbn [bind]. rewrite E3. cbn [bind]. rewrite E4. cbn [bind].
    unfold check_supported_with_everything. rewrite Ec. cbn [bind]. rewrite (see_orientation _ _ _ _ P Ho). cbn [bind]. repeat eexists.
Qed.
Lemma number_range' : forall fs tag v, has_number fs tag v -> 0 <= v < 2 ^ 32.
Proof. intros fs tag v [[_ H]|[_ H]]; lia. Qed.
Context (powf : f32 -> f32 -> f32) (parse_f32 : string -> option f32).
Variables (db : list table) (l : loader).
Hypothesis Hl : loader_new db = Ok l.
Variables (big : bool) (ts : list tree) (raw : tree) (make model : string) (file : list Z) (w h cpp comp : Z) (o : orientation) (m : dng_meta).
Hypothesis D : dng_tree big ts raw make model file w h cpp comp o m.
(** All but the samples *)
Lemma nested_whole : comp = 1 \/ comp = 7 -> forall C : list Z -> Prop,
  (forall root sub, Sees big (visible ts) root -> Sees big (visible [raw]) sub -> exists out,
     (if comp =? 1 then dng_uncompressed (buffer_new file) root sub (w * cpp) h else dng_compressed (buffer_new file) sub (w * cpp) h cpp) = Ok out /\ C out) ->
  exists img, lib_decode powf parse_f32 db file = Ok img /\ dng_shows l make model img w h cpp o m /\ C (i_data img).
Proof.
  intros Hc C HC. destruct (tree_opened _ _ _ (dt_file _ _ _ _ _ _ _ _ _ _ _ _ D)) as (root & G & N). pose proof (n_sees _ _ _ N) as P.
  assert (exists sub r, dng_full (find_ifds_with_tag root T_Compression) = Ok (sub :: r) /\ Sees big (visible [raw]) sub) as (sub & rr & Fu & Q).
  { destruct (n_tree _ _ _ N) as (is & -> & R). destruct (root_full big ts is 0 0 big R (dt_marked _ _ _ _ _ _ _ _ _ _ _ _ D)) as (r & R1 & R2). rewrite (dt_raw _ _ _ _ _ _ _ _ _ _ _ _ D) in R2.
    destruct R2 as (sub & r' & -> & R3). exists sub, r'. split; [exact R1|apply tree_sees; exact R3]. }
  destruct (HC root sub P Q) as (out & S1 & S2).
  destruct (nested_names _ _ _ _ _ l o P (dt_names _ _ _ _ _ _ _ _ _ _ _ _ D) (dt_orientation _ _ _ _ _ _ _ _ _ _ _ _ D)) as (n1 & n2 & n3 & n4 & N1 & N2).
  destruct (nested_wb_read _ _ _ _ _ _ _ _ _ _ _ _ _ P D) as (wb & W1 & W2 & W3).
  destruct (nested_pattern_found _ _ _ _ _ _ _ _ _ _ _ _ _ Q D) as (pi & p & P1 & P2 & P3).
  destruct (nested_matrix_read _ _ _ _ _ _ _ _ _ _ _ _ _ P D) as (x & X1 & X2).
  eexists. split; [|split].
  - eapply lib_decodes; [exact Hl|]. unfold decode. rewrite G. assert (V : by_tiff l (zlen file) root = Ok (DTiff DNG root)).
    { pose proof (dt_version _ _ _ _ _ _ _ _ _ _ _ _ D) as V. apply in_map_iff in V. destruct V as [f [E Hf]]. destruct (s_in _ _ _ P _ Hf) as (en & E1 & _). unfold by_tiff, has_entry. rewrite <- E, E1. reflexivity. }
    rewrite V. cbn [bind decoder_image].
    unfold dng_image. rewrite Fu. cbn [bind]. change (get (sub :: rr) 0) with (Ok sub). cbn [bind].
    rewrite (proj1 (see_usize _ _ _ _ _ Q (dt_width _ _ _ _ _ _ _ _ _ _ _ _ D))), (proj1 (see_usize _ _ _ _ _ Q (dt_height _ _ _ _ _ _ _ _ _ _ _ _ D))),
      (proj1 (see_usize _ _ _ _ _ Q (dt_cpp _ _ _ _ _ _ _ _ _ _ _ _ D))), (proj1 (see_usize _ _ _ _ _ Q (dt_compression _ _ _ _ _ _ _ _ _ _ _ _ D))). cbn [bind]. rewrite P1. cbn [bind].
    assert (S3 : (if comp =? 1 then dng_uncompressed (buffer_new file) root sub (w * cpp) h
       else if comp =? 7 then dng_compressed (buffer_new file) sub (w * cpp) h cpp else Err "Don't know how to read DNGs with compression") = Ok out).
    { rewrite <- S1. destruct Hc as [->| ->]; reflexivity. }
    rewrite S3. cbn [bind]. rewrite N1. cbn [bind]. rewrite W1. cbn [bind]. rewrite (nested_blacks_read _ _ _ _ _ _ _ _ _ _ _ _ _ Q D). cbn [bind].
    rewrite (nested_whites_read _ _ _ _ _ _ _ _ _ _ _ _ _ Q D). cbn [bind]. rewrite X1. cbn [bind]. rewrite P2. cbn [bind]. rewrite (nested_crops_read _ _ _ _ _ _ _ _ _ _ _ _ _ Q D). cbn [bind]. reflexivity.
  - split; cbn [i_width i_height i_cpp i_orientation i_make i_model i_clean_make i_clean_model i_whites i_blacks i_wb i_crops i_cfa i_xyz_to_cam]; try reflexivity; assumption.
  - exact S2.
Qed.
Lemma nested_stored : forall offset stored, from_offset file offset stored -> bytes stored.
Proof.
  intros offset stored [_ <-]. pose proof (tf_bytes _ _ _ (dt_file _ _ _ _ _ _ _ _ _ _ _ _ D)) as B. rewrite <- (firstn_skipn (Z.to_nat offset) file) in B. apply Forall_app in B. apply B.
Qed.
(** Samples of 16 or 12 bits *)
Lemma dng_plain_nested : forall bps offset samples rest, comp = 1 -> bps = 16 \/ bps = 12 -> has_number (visible [raw]) T_BitsPerSample bps -> has_number (visible [raw]) T_StripOffsets offset ->
  0 < w * cpp -> (bps = 12 -> Z.even (w * cpp) = true) ->
  from_offset file offset ((if bps =? 16 then pack16 false samples else pack 12 samples) ++ rest) ->
  Z.of_nat (length samples) = w * cpp * h -> Forall (Spec_Packed.fits (Z.to_nat bps)) samples ->
  exists img, lib_decode powf parse_f32 db file = Ok img /\ dng_shows l make model img w h cpp o m /\ i_data img = samples.
Proof.
  intros bps offset samples rest Hc Hb Tb To Hw He Hf Hn Hs. apply (nested_whole (or_introl Hc) (fun d => d = samples)). intros root sub P Q. exists samples. split; [|reflexivity].
  rewrite Hc. cbn [Z.eqb Pos.eqb]. unfold dng_uncompressed. rewrite (proj1 (see_usize _ _ _ _ _ Q To)). cbn [bind]. rewrite (buffer_from _ _ _ Hf). cbn [bind].
  rewrite (proj1 (see_usize _ _ _ _ _ Q Tb)). cbn [bind].
  assert (B : bytes (rest ++ zeros 16)) by (pose proof (nested_stored _ _ Hf) as B; apply Forall_app in B; apply Forall_app; split; [apply B|apply zeros_bytes]).
  pose proof (number_range' _ _ _ (dt_height _ _ _ _ _ _ _ _ _ _ _ _ D)) as Rh. rewrite <- app_assoc.
  destruct Hb as [->| ->]; cbn [Z.eqb Pos.eqb]; change (Z.to_nat 16) with 16%nat in Hs; change (Z.to_nat 12) with 12%nat in Hs.
  - apply Props_Packed.C06_16le; try assumption; lia.
  - apply Props_Packed.C06_12be; try assumption; try lia. apply even_mod. auto.
Qed.
(** Bytes that stand for the values of a table *)
Lemma dng_table_nested : forall offset stored curve, comp = 1 -> has_number (visible [raw]) T_BitsPerSample 8 -> has_number (visible [raw]) T_StripOffsets offset ->
  has_numbers (visible ts) T_Linearization curve -> length curve = 256%nat -> samples curve -> increasing curve -> not_too_steep curve ->
  0 < w * cpp -> from_offset file offset stored -> w * cpp * h <= Z.of_nat (length stored) ->
  exists img, lib_decode powf parse_f32 db file = Ok img /\ dng_shows l make model img w h cpp o m /\ Z.of_nat (length (i_data img)) = w * cpp * h /\
    forall k, 0 <= k < w * cpp * h -> near curve (nth (Z.to_nat k) stored 0) (nth (Z.to_nat k) (i_data img) 0).
Proof.
  intros offset stored curve Hc Tb To Tl L256 Hs Hi Ht Hw Hf Hn.
  assert (B : bytes (stored ++ zeros 16)) by (apply Forall_app; split; [exact (nested_stored _ _ Hf)|apply zeros_bytes]).
  pose proof (number_range' _ _ _ (dt_height _ _ _ _ _ _ _ _ _ _ _ _ D)) as Rh.
  destruct (Props_Packed.C05_8bit_table curve (stored ++ zeros 16) (w * cpp) h Hs Hi Ht ltac:(lia) B Hw ltac:(lia)) as (tbl & out & T1 & T2 & T3 & T4).
  { rewrite app_length. lia. }
  { rewrite app_length. change (length (zeros 16)) with 16%nat. clear - Hn Hw. nia. }
  destruct (nested_whole (or_introl Hc) (fun d => d = out)) as (img & I1 & I2 & I3).
  - intros root sub P Q. exists out. split; [|reflexivity].
    rewrite Hc. cbn [Z.eqb Pos.eqb]. unfold dng_uncompressed. rewrite (proj1 (see_usize _ _ _ _ _ Q To)). cbn [bind]. rewrite (buffer_from _ _ _ Hf). cbn [bind].
    rewrite (proj1 (see_usize _ _ _ _ _ Q Tb)). cbn [bind Z.eqb Pos.eqb].
    destruct (see_numbers _ _ _ _ _ P Tl) as (en & E1 & E2 & E3). unfold fetch_tag. rewrite E1. cbn [bind].
    assert (Em : mapM (fun i => v <- get_u32 en i ;; Ok (as_u16 v)) (zrange 0 256) = Ok curve).
    { replace 256 with (Z.of_nat (length curve)) by lia. apply (table_read M); [exact Hs|]. intros k v Hk. apply (E3 k v Hk). }
    rewrite Em. cbn [bind]. rewrite T1. cbn [bind]. exact T2.
  - exists img. split; [exact I1|]. split; [exact I2|]. subst out. split; [exact T3|].
    intros k Hk. specialize (T4 (k / (w * cpp)) (k mod (w * cpp))).
    assert (Ek : k / (w * cpp) * (w * cpp) + k mod (w * cpp) = k) by (pose proof (Z.div_mod k (w * cpp) ltac:(lia)); lia). rewrite Ek in T4.
    rewrite app_nth1 in T4 by lia. apply T4; [|apply Z.mod_pos_bound; exact Hw]. split; [apply Z.div_pos; lia|apply Z.div_lt_upper_bound; lia].
Qed.
(** The upper byte first *)
Lemma dng_swapped_nested : forall offset samples rest, comp = 1 -> has_number (visible [raw]) T_BitsPerSample 16 -> has_number (visible [raw]) T_StripOffsets offset ->
  0 < w * cpp -> from_offset file offset (pack16 true samples ++ rest) -> Z.of_nat (length samples) = w * cpp * h -> Forall (Spec_Packed.fits 16) samples ->
  exists img, lib_decode powf parse_f32 db file = Ok img /\ i_data img = map swap16 samples.
Proof.
  intros offset samples rest Hc Tb To Hw Hf Hn Hs. destruct (pack16_swap samples Hs) as [E1 E2].
  destruct (dng_plain_nested 16 offset (map swap16 samples) rest Hc (or_introl eq_refl) Tb To Hw) as (img & I1 & _ & I2).
  - discriminate.
  - cbn [Z.eqb Pos.eqb]. rewrite <- E1. exact Hf.
  - rewrite map_length. exact Hn.
  - exact E2.
  - exists img. auto.
Qed.
(** One lossless JPEG *)
Lemma dng_jpeg_nested : forall offset n jw jh pic stored, comp = 7 -> has_number (visible [raw]) T_StripOffsets offset -> from_offset file offset stored ->
  holds_jpeg debug n jw jh pic stored -> 0 < h <= jh -> 0 < w * cpp <= n * jw -> (w * cpp) mod n = 0 ->
  exists img, lib_decode powf parse_f32 db file = Ok img /\ dng_shows l make model img w h cpp o m /\ is_image (i_data img) (w * cpp) h (flat n pic).
Proof.
  intros offset n jw jh pic stored Hc To Hf J Hh Hw Hm. apply (nested_whole (or_intror Hc) (fun d => is_image d (w * cpp) h (flat n pic))). intros root sub P Q.
  destruct (see_number _ _ _ _ _ Q To) as (en & E2 & E3 & E4 & _). pose proof (tf_size _ _ _ (dt_file _ _ _ _ _ _ _ _ _ _ _ _ D)) as Hs. pose proof (from_length _ _ _ Hf) as Lf.
  destruct (jpeg_read n jw jh pic stored J ltac:(lia)) as (lj & L1 & L2 & L3 & L4 & L5 & L6 & L7).
  assert (Eb : w * cpp = n * (w * cpp / n)) by (apply Z.div_exact; lia). set (k := w * cpp / n) in *.
  destruct (L7 (zeros (w * cpp * h)) 0 (w * cpp) k h) as (out & O1 & O2).
  - nia.
  - lia.
  - lia.
  - lia.
  - unfold zeros. rewrite repeat_length. nia.
  - intros _. lia.
  - exists out. split.
    + rewrite Hc. cbn [Z.eqb Pos.eqb]. unfold dng_compressed. rewrite E2, E3. cbn [Z.eqb Pos.eqb negb]. rewrite E4. cbn [bind]. rewrite (buffer_from _ _ _ Hf). cbn [bind]. rewrite L1. cbn [bind].
      rewrite <- Eb in O1. exact O1.
    + split; [rewrite (proj1 O2); unfold zeros; rewrite repeat_length; nia|].
      intros r c Hr Hc'. apply (tile_pasted n 0 (w * cpp) k h pic (flat n pic) (w * cpp) (zeros (w * cpp * h)) out); try assumption; try lia. intros; f_equal; lia.
Qed.
(** Tiles *)
Lemma dng_tiles_nested : forall n tw tl offs pic, comp = 7 -> has_no (visible [raw]) T_StripOffsets -> has_numbers (visible [raw]) T_TileOffsets offs ->
  has_number (visible [raw]) T_TileWidth tw -> has_number (visible [raw]) T_TileLength tl ->
  0 < tw -> 0 < tl -> 0 < h -> 0 < w * cpp -> w * cpp * h < 2 ^ 64 -> (w * cpp) mod n = 0 -> (tw * cpp) mod n = 0 -> (n = 4 -> w <= tw) ->
  Z.of_nat (length offs) = tiles w tw * tiles h tl ->
  (forall tr tc, 0 <= tr < tiles h tl -> 0 <= tc < tiles w tw -> exists stored jw jh tile,
     from_offset file (nth (Z.to_nat (tr * tiles w tw + tc)) offs 0) stored /\ holds_jpeg debug n jw jh tile stored /\
     tile_shows n (tw * cpp) tl (w * cpp) h pic tr tc jw jh tile) ->
  exists img, lib_decode powf parse_f32 db file = Ok img /\ dng_shows l make model img w h cpp o m /\ is_image (i_data img) (w * cpp) h pic.
Proof.
  intros n tw tl offs pic Hc Hno To Tw Tl Htw Htl Hh Hw Hov Nw Nt H4 Hn Ht.
  apply (nested_whole (or_intror Hc) (fun d => is_image d (w * cpp) h pic)). intros root sub P Q.
  destruct (see_numbers _ _ _ _ _ Q To) as (en & E2 & E3 & E4).
  pose proof (number_range' _ _ _ Tw) as Rt. pose proof (number_range' _ _ _ (dt_cpp _ _ _ _ _ _ _ _ _ _ _ _ D)) as Rc.
  pose proof (number_range' _ _ _ (dt_width _ _ _ _ _ _ _ _ _ _ _ _ D)) as Rw. pose proof (number_range' _ _ _ (dt_height _ _ _ _ _ _ _ _ _ _ _ _ D)) as Rh.
  assert (Hcpp : 0 < cpp) by nia.
  assert (Et : tiles (w * cpp) (tw * cpp) = tiles w tw).
  { unfold tiles. f_equal. symmetry. apply (Z.div_unique_pos (w * cpp - 1) (tw * cpp) _ (((w - 1) mod tw) * cpp + (cpp - 1))).
    - pose proof (Z.mod_pos_bound (w - 1) tw Htw). nia.
    - pose proof (Z.div_mod (w - 1) tw ltac:(lia)). nia. }
  assert (Bw : 0 < w * cpp < 2 ^ 64) by (clear - Hw Rw Rc; nia). assert (Bh : 0 < h < 2 ^ 64) by (clear - Hh Rh; lia). assert (Bt : 0 < tw * cpp < 2 ^ 64) by (clear - Htw Rt Rc Hcpp; nia).
  assert (B : 0 <= tiles w tw * tiles h tl < 2 ^ 64) by (apply tiles_bound; [exact Htw|exact Htl| |exact Hh|]; clear - Hov Hw Hcpp Hh; nia).
  destruct (tiles_decoded n (tw * cpp) tl (w * cpp) h pic file offs en) as (out & O1 & O2).
  - exact (tf_size _ _ _ (dt_file _ _ _ _ _ _ _ _ _ _ _ _ D)).
  - intros k v Hk. apply (E4 k v Hk).
  - rewrite Et. exact Hn.
  - exact Bw.
  - exact Bh.
  - apply Bt.
  - exact Htl.
  - exact Nw.
  - exact Nt.
  - intros E. specialize (H4 E). clear - H4 Hcpp. nia.
  - rewrite Et. exact Ht.
  - exists out. split; [|exact O2]. rewrite Hc. cbn [Z.eqb Pos.eqb]. unfold dng_compressed. rewrite (s_no _ _ _ Q _ Hno), E2.
    rewrite (proj1 (see_usize _ _ _ _ _ Q Tw)). cbn [bind]. assert (U1 : umul tw cpp = Ok (tw * cpp)) by (apply arith_u_ok; clear - Bt; lia). rewrite U1. cbn [bind].
    rewrite (proj1 (see_usize _ _ _ _ _ Q Tl)). cbn [bind]. rewrite (usub_ok (w * cpp) 1) by (clear - Bw; lia). cbn [bind].
    replace (tw * cpp =? 0) with false by (clear - Bt; lia). rewrite (usub_ok h 1) by (clear - Bh; lia). cbn [bind]. replace (tl =? 0) with false by (clear - Htl; lia). cbv zeta.
    change ((w * cpp - 1) / (tw * cpp) + 1) with (tiles (w * cpp) (tw * cpp)). rewrite Et in *. change ((h - 1) / tl + 1) with (tiles h tl).
    assert (U2 : umul (tiles w tw) (tiles h tl) = Ok (tiles w tw * tiles h tl)) by (apply arith_u_ok; exact B). rewrite U2. cbn [bind]. rewrite E3, Hn, Z.eqb_refl. cbn [negb]. exact O1.
Qed.
End Any.
