(** DNG files (C54): whole files. *)
From Coq Require Import String Ascii ZArith List Bool Reals Lia ZifyBool ZifyNat.
From Flocq Require Import Core BinarySingleNaN.
From Verif Require Import Base Num F32 Bytes Pumps Cfa Packed Threads Ljpeg Tiff Transform Image Camera Clients Decoder Dec_Ljpeg Dispatch.
From Verif Require Import Spec_Bits Spec_Image Spec_Stream Spec_Packed Spec_Cfa Spec_Tiff Spec_Camera Spec_Known Spec_Huffman Spec_Ljpeg Spec_Curve Spec_Meta Spec_File Spec_Dng.
From Verif Require Import P_Base P_Bits P_F32 P_Threads P_Tiff3 P_Tiff5 P_File1 P_File2 P_File4 P_Dng1 P_Dng2.
From Verif Require Props_Packed Props_Ljpeg.
Import ListNotations.
Local Open Scope Z_scope.

Lemma tiles_range : forall s t, 0 < t -> 0 < s -> 0 <= tiles s t <= s.
Proof.
  intros s t Ht Hs. unfold tiles. pose proof (Z.div_pos (s - 1) t ltac:(lia) Ht). assert ((s - 1) / t <= s - 1) by (apply Z.div_le_upper_bound; [lia|]; clear - Ht Hs; nia). lia.
Qed.
Lemma tiles_bound : forall w h tw tl, 0 < tw -> 0 < tl -> 0 < w -> 0 < h -> w * h < 2 ^ 64 -> 0 <= tiles w tw * tiles h tl < 2 ^ 64.
Proof.
  intros w h tw tl H1 H2 H3 H4 H5. pose proof (tiles_range w tw H1 H3). pose proof (tiles_range h tl H2 H4). set (a := tiles w tw) in *. set (b := tiles h tl) in *. clearbody a b. clear H1 H2.
  assert (a * b <= w * h) by nia. nia.
Qed.
Lemma table_read : forall (M : Mode) en vs, samples vs -> (forall k v, nth_error vs k = Some v -> get_u32 en (Z.of_nat k) = Ok v) ->
  mapM (fun i => v <- get_u32 en i ;; Ok (as_u16 v)) (zrange 0 (Z.of_nat (length vs))) = Ok vs.
Proof.
  intros M en vs Hs H. unfold zrange. rewrite Z.sub_0_r, Nat2Z.id.
  assert (G : forall n, (forall k v, nth_error vs k = Some v -> get_u32 en (Z.of_nat (n + k)) = Ok v) -> mapM (fun i => v <- get_u32 en i ;; Ok (as_u16 v)) (map (fun k => 0 + Z.of_nat k) (seq n (length vs))) = Ok vs).
  { clear H. induction Hs as [|x t Hx Ht IH]; intros n H; [reflexivity|]. cbn [length seq map mapM]. pose proof (H O x eq_refl) as H0. rewrite Nat.add_0_r in H0. rewrite Z.add_0_l, H0. cbn [bind].
    rewrite (IH (S n)); [|intros k v Hk; replace (S n + k)%nat with (n + S k)%nat by lia; apply H; exact Hk]. cbn [bind]. unfold as_u16. rewrite (Z.mod_small x) by (unfold sample in Hx; lia). reflexivity. }
  apply G. exact H.
Qed.
(** Samples of 16 bits, the upper byte first *)
Lemma pack16_swap : forall l, Forall (Spec_Packed.fits 16) l -> pack16 true l = pack16 false (map swap16 l) /\ Forall (Spec_Packed.fits 16) (map swap16 l).
Proof.
  induction 1 as [|v t Hv Ht [IH1 IH2]]; [split; [reflexivity|constructor]|]. unfold Spec_Packed.fits in Hv. change (2 ^ Z.of_nat 16) with 65536 in Hv.
  pose proof (Z.div_mod v 256 ltac:(lia)). pose proof (Z.mod_pos_bound v 256 ltac:(lia)). assert (0 <= v / 256 < 256) by (split; [apply Z.div_pos; lia|apply Z.div_lt_upper_bound; lia]).
  assert (E1 : swap16 v mod 256 = v / 256) by (unfold swap16; rewrite Z.add_comm, Z.mod_add by lia; apply Z.mod_small; lia).
  assert (E2 : swap16 v / 256 = v mod 256) by (unfold swap16; rewrite Z.add_comm, Z.div_add by lia; rewrite (Z.div_small (v / 256)) by lia; lia).
  split.
  - cbn [map]. unfold pack16 in *. cbn [flat_map]. rewrite IH1. f_equal. rewrite E1, E2. reflexivity.
  - cbn [map]. constructor; [|exact IH2]. unfold Spec_Packed.fits. change (2 ^ Z.of_nat 16) with 65536. unfold swap16. lia.
Qed.
Section Any.
Context {M : Mode}.
Lemma directory_opened : forall big fs make model file, directory_file big fs make model file ->
  exists root sub, (forall l, get_decoder l (buffer_new file) (zlen file) = by_tiff l (zlen file) root) /\ Parsed big fs root sub.
Proof.
  intros big fs make model file [Cf (body & Ef) Hs Hb].
  assert (Eb : buffer_new file = tiff_file big fs ++ (body ++ zeros 16)) by (unfold buffer_new; rewrite Ef, <- !app_assoc; reflexivity).
  assert (Lb : Z.of_nat (length (buffer_new file)) = Z.of_nat (length file) + 16) by (unfold buffer_new; rewrite app_length; change (length (zeros 16)) with 16%nat; lia).
  destruct (parsed big fs make model (body ++ zeros 16) Cf) as (root & sub & E & P); [rewrite <- Eb; lia|].
  exists root, sub. split; [|exact P].
  intros l. destruct (header big fs (body ++ zeros 16)) as (H1 & H2 & H3 & H4); [rewrite <- Eb; lia|]. rewrite <- Eb in *.
  unfold get_decoder. rewrite H1. cbn [bind]. rewrite H2. cbn [bind]. rewrite H3. cbn [bind]. rewrite H4. cbn [bind]. rewrite E. reflexivity.
Qed.
Lemma names_read : forall big fs make model root sub l o, Parsed big fs root sub -> camera_fields fs make model -> has_orientation fs o ->
  exists a b c d, dng_names l root = Ok (a, b, c, d, o) /\
    (a, b, c, d) = match find_camera l make model "" with
                   | Some cam => (c_make cam, c_model cam, c_clean_make cam, c_clean_model cam)
                   | None => (make, model, make, model)
                   end.
Proof.
  intros big fs make model root sub l o P C Ho. unfold dng_names, check_supported. destruct (find_camera l make model "") as [cam|] eqn:Ec.
  - rewrite (supported _ _ _ _ _ _ _ _ _ _ P C Ho Ec). repeat eexists.
  - destruct C as [_ _ _ C1 C2 C3 C4].
    destruct (text_found _ _ _ _ _ _ P C1 C2) as (en & E1 & E2). destruct (text_found _ _ _ _ _ _ P C3 C4) as (en' & E3 & E4).
    unfold check_supported_with_mode, fetch_tag. rewrite E1. cbn [bind]. rewrite E2. cbn [bind]. rewrite E3. cbn [bind]. rewrite E4. cbn [bind].
    unfold check_supported_with_everything. rewrite Ec. cbn [bind]. rewrite (orientation_read _ _ _ _ _ P Ho). cbn [bind]. repeat eexists.
Qed.

Context (powf : f32 -> f32 -> f32) (parse_f32 : string -> option f32).
Variables (db : list table) (l : loader).
Hypothesis Hl : loader_new db = Ok l.
Variables (big : bool) (fs : list field) (make model : string) (file : list Z) (w h cpp comp : Z) (o : orientation) (m : dng_meta).
Hypothesis F : directory_file big fs make model file.
Hypothesis D : dng_fields big fs w h cpp comp o m.
(** All but the samples *)
Lemma dng_whole : comp = 1 \/ comp = 7 -> forall Q : list Z -> Prop,
  (forall root sub, Parsed big fs root sub -> exists out,
     (if comp =? 1 then dng_uncompressed (buffer_new file) root sub (w * cpp) h else dng_compressed (buffer_new file) sub (w * cpp) h cpp) = Ok out /\ Q out) ->
  exists img, lib_decode powf parse_f32 db file = Ok img /\ dng_shows l make model img w h cpp o m /\ Q (i_data img).
Proof.
  intros Hc Q HQ. destruct (directory_opened _ _ _ _ _ F) as (root & sub & G & P). destruct (HQ root sub P) as (out & S1 & S2).
  destruct (names_read _ _ _ _ _ _ l o P (df_fields _ _ _ _ _ F) (d_orientation _ _ _ _ _ _ _ _ D)) as (n1 & n2 & n3 & n4 & N1 & N2).
  destruct (wb_read _ _ _ _ _ _ _ _ _ _ P D) as (wb & W1 & W2 & W3).
  destruct (pattern_found _ _ _ _ _ _ _ _ _ _ P D) as (pi & p & P1 & P2 & P3).
  destruct (matrix_read _ _ _ _ _ _ _ _ _ _ P D) as (x & X1 & X2).
  eexists. split; [|split].
  - eapply lib_decodes; [exact Hl|]. unfold decode. rewrite G, (by_dng _ _ _ _ _ _ P (d_version _ _ _ _ _ _ _ _ D)). cbn [bind decoder_image].
    unfold dng_image. rewrite (full_read _ _ _ _ _ _ _ _ _ _ P D Hc). cbn [bind]. change (get [sub; sub] 0) with (Ok sub). cbn [bind].
    rewrite (proj2 (usize_read _ _ _ _ _ _ P (d_width _ _ _ _ _ _ _ _ D))), (proj2 (usize_read _ _ _ _ _ _ P (d_height _ _ _ _ _ _ _ _ D))),
      (proj2 (usize_read _ _ _ _ _ _ P (d_cpp _ _ _ _ _ _ _ _ D))), (proj2 (usize_read _ _ _ _ _ _ P (d_compression _ _ _ _ _ _ _ _ D))). cbn [bind]. rewrite P1. cbn [bind].
    assert (S3 : (if comp =? 1 then dng_uncompressed (buffer_new file) root sub (w * cpp) h
       else if comp =? 7 then dng_compressed (buffer_new file) sub (w * cpp) h cpp else Err "Don't know how to read DNGs with compression") = Ok out).
    { rewrite <- S1. destruct Hc as [->| ->]; reflexivity. }
    rewrite S3. cbn [bind]. rewrite N1. cbn [bind]. rewrite W1. cbn [bind]. rewrite (blacks_read _ _ _ _ _ _ _ _ _ _ P D). cbn [bind].
    rewrite (whites_read _ _ _ _ _ _ _ _ _ _ P D). cbn [bind]. rewrite X1. cbn [bind]. rewrite P2. cbn [bind]. rewrite (crops_read _ _ _ _ _ _ _ _ _ _ P D). cbn [bind]. reflexivity.
  - split; cbn [i_width i_height i_cpp i_orientation i_make i_model i_clean_make i_clean_model i_whites i_blacks i_wb i_crops i_cfa i_xyz_to_cam]; try reflexivity; assumption.
  - exact S2.
Qed.
Lemma stored_bytes : forall offset stored, from_offset file offset stored -> bytes stored.
Proof.
  intros offset stored [_ <-]. pose proof (df_bytes _ _ _ _ _ F) as B. rewrite <- (firstn_skipn (Z.to_nat offset) file) in B. apply Forall_app in B. apply B.
Qed.
(** Samples of 16 or 12 bits *)
Lemma dng_plain_file : forall bps offset samples rest, comp = 1 -> bps = 16 \/ bps = 12 -> has_number fs T_BitsPerSample bps -> has_number fs T_StripOffsets offset ->
  0 < w * cpp -> (bps = 12 -> Z.even (w * cpp) = true) ->
  from_offset file offset ((if bps =? 16 then pack16 false samples else pack 12 samples) ++ rest) ->
  Z.of_nat (length samples) = w * cpp * h -> Forall (Spec_Packed.fits (Z.to_nat bps)) samples ->
  exists img, lib_decode powf parse_f32 db file = Ok img /\ dng_shows l make model img w h cpp o m /\ i_data img = samples.
Proof.
  intros bps offset samples rest Hc Hb Tb To Hw He Hf Hn Hs. apply (dng_whole (or_introl Hc) (fun d => d = samples)). intros root sub P. exists samples. split; [|reflexivity].
  rewrite Hc. cbn [Z.eqb Pos.eqb]. unfold dng_uncompressed. rewrite (proj2 (usize_read _ _ _ _ _ _ P To)). cbn [bind]. rewrite (buffer_from _ _ _ Hf). cbn [bind].
  rewrite (proj2 (usize_read _ _ _ _ _ _ P Tb)). cbn [bind].
  assert (B : bytes (rest ++ zeros 16)) by (pose proof (stored_bytes _ _ Hf) as B; apply Forall_app in B; apply Forall_app; split; [apply B|apply zeros_bytes]).
  pose proof (number_range _ _ _ (d_height _ _ _ _ _ _ _ _ D)) as Rh. rewrite <- app_assoc.
  destruct Hb as [->| ->]; cbn [Z.eqb Pos.eqb]; change (Z.to_nat 16) with 16%nat in Hs; change (Z.to_nat 12) with 12%nat in Hs.
  - apply Props_Packed.C06_16le; try assumption; lia.
  - apply Props_Packed.C06_12be; try assumption; try lia. apply even_mod. auto.
Qed.
(** Bytes that stand for the values of a table *)
Lemma dng_table_file : forall offset stored curve, comp = 1 -> has_number fs T_BitsPerSample 8 -> has_number fs T_StripOffsets offset ->
  has_numbers fs T_Linearization curve -> length curve = 256%nat -> samples curve -> increasing curve -> not_too_steep curve ->
  0 < w * cpp -> from_offset file offset stored -> w * cpp * h <= Z.of_nat (length stored) ->
  exists img, lib_decode powf parse_f32 db file = Ok img /\ dng_shows l make model img w h cpp o m /\ Z.of_nat (length (i_data img)) = w * cpp * h /\
    forall k, 0 <= k < w * cpp * h -> near curve (nth (Z.to_nat k) stored 0) (nth (Z.to_nat k) (i_data img) 0).
Proof.
  intros offset stored curve Hc Tb To Tl L256 Hs Hi Ht Hw Hf Hn.
  assert (B : bytes (stored ++ zeros 16)) by (apply Forall_app; split; [exact (stored_bytes _ _ Hf)|apply zeros_bytes]).
  pose proof (number_range _ _ _ (d_height _ _ _ _ _ _ _ _ D)) as Rh.
  destruct (Props_Packed.C05_8bit_table curve (stored ++ zeros 16) (w * cpp) h Hs Hi Ht ltac:(lia) B Hw ltac:(lia)) as (tbl & out & T1 & T2 & T3 & T4).
  { rewrite app_length. lia. }
  { rewrite app_length. change (length (zeros 16)) with 16%nat. clear - Hn Hw. nia. }
  destruct (dng_whole (or_introl Hc) (fun d => d = out)) as (img & I1 & I2 & I3).
  - intros root sub P. exists out. split; [|reflexivity].
    rewrite Hc. cbn [Z.eqb Pos.eqb]. unfold dng_uncompressed. rewrite (proj2 (usize_read _ _ _ _ _ _ P To)). cbn [bind]. rewrite (buffer_from _ _ _ Hf). cbn [bind].
    rewrite (proj2 (usize_read _ _ _ _ _ _ P Tb)). cbn [bind Z.eqb Pos.eqb].
    destruct (numbers_found _ _ _ _ _ _ P Tl) as (en & E1 & _ & E2 & E3). unfold fetch_tag. rewrite E1. cbn [bind].
    assert (Em : mapM (fun i => v <- get_u32 en i ;; Ok (as_u16 v)) (zrange 0 256) = Ok curve).
    { replace 256 with (Z.of_nat (length curve)) by lia. apply (table_read M); [exact Hs|]. intros k v Hk. apply (E3 k v Hk). }
    rewrite Em. cbn [bind]. rewrite T1. cbn [bind]. exact T2.
  - exists img. split; [exact I1|]. split; [exact I2|]. subst out. split; [exact T3|].
    intros k Hk. specialize (T4 (k / (w * cpp)) (k mod (w * cpp))).
    assert (Ek : k / (w * cpp) * (w * cpp) + k mod (w * cpp) = k) by (pose proof (Z.div_mod k (w * cpp) ltac:(lia)); lia). rewrite Ek in T4.
    rewrite app_nth1 in T4 by lia. apply T4; [|apply Z.mod_pos_bound; exact Hw]. split; [apply Z.div_pos; lia|apply Z.div_lt_upper_bound; lia].
Qed.
(** The upper byte first *)
Lemma dng_swapped_file : forall offset samples rest, comp = 1 -> has_number fs T_BitsPerSample 16 -> has_number fs T_StripOffsets offset ->
  0 < w * cpp -> from_offset file offset (pack16 true samples ++ rest) -> Z.of_nat (length samples) = w * cpp * h -> Forall (Spec_Packed.fits 16) samples ->
  exists img, lib_decode powf parse_f32 db file = Ok img /\ i_data img = map swap16 samples.
Proof.
  intros offset samples rest Hc Tb To Hw Hf Hn Hs. destruct (pack16_swap samples Hs) as [E1 E2].
  destruct (dng_plain_file 16 offset (map swap16 samples) rest Hc (or_introl eq_refl) Tb To Hw) as (img & I1 & _ & I2).
  - discriminate.
  - cbn [Z.eqb Pos.eqb]. rewrite <- E1. exact Hf.
  - rewrite map_length. exact Hn.
  - exact E2.
  - exists img. auto.
Qed.
(** One lossless JPEG *)
Lemma dng_jpeg_file : forall offset n jw jh pic stored, comp = 7 -> has_number fs T_StripOffsets offset -> from_offset file offset stored ->
  holds_jpeg debug n jw jh pic stored -> 0 < h <= jh -> 0 < w * cpp <= n * jw -> (w * cpp) mod n = 0 ->
  exists img, lib_decode powf parse_f32 db file = Ok img /\ dng_shows l make model img w h cpp o m /\ is_image (i_data img) (w * cpp) h (flat n pic).
Proof.
  intros offset n jw jh pic stored Hc To Hf J Hh Hw Hm. apply (dng_whole (or_intror Hc) (fun d => is_image d (w * cpp) h (flat n pic))). intros root sub P.
  destruct (number_read _ _ _ _ _ _ P To) as (en & _ & E2 & E3 & E4). pose proof (df_size _ _ _ _ _ F) as Hs. pose proof (from_length _ _ _ Hf) as Lf.
  destruct (jpeg_read n jw jh pic stored J ltac:(lia)) as (lj & L1 & L2 & L3 & L4 & L5 & L6 & L7).
  assert (Eb : w * cpp = n * (w * cpp / n)) by (apply Z.div_exact; lia). set (k := w * cpp / n) in *.
  destruct (L7 (zeros (w * cpp * h)) 0 (w * cpp) k h) as (out & O1 & O2).
  - nia.
  - lia.
  - lia.
  - lia.
  - unfold zeros. rewrite repeat_length. nia.
  - intros _. lia.
  - exists out. split.
    + rewrite Hc. cbn [Z.eqb Pos.eqb]. unfold dng_compressed. rewrite E2, E3. cbn [Z.eqb Pos.eqb negb]. rewrite E4. cbn [bind]. rewrite (buffer_from _ _ _ Hf). cbn [bind]. rewrite L1. cbn [bind].
      rewrite <- Eb in O1. exact O1.
    + split; [rewrite (proj1 O2); unfold zeros; rewrite repeat_length; nia|].
      intros r c Hr Hc'. apply (tile_pasted n 0 (w * cpp) k h pic (flat n pic) (w * cpp) (zeros (w * cpp * h)) out); try assumption; try lia. intros; f_equal; lia.
Qed.
(** Tiles *)
Lemma dng_tiles_file : forall n tw tl offs pic, comp = 7 -> has_no fs T_StripOffsets -> has_numbers fs T_TileOffsets offs ->
  has_number fs T_TileWidth tw -> has_number fs T_TileLength tl ->
  0 < tw -> 0 < tl -> 0 < h -> 0 < w * cpp -> w * cpp * h < 2 ^ 64 -> (w * cpp) mod n = 0 -> (tw * cpp) mod n = 0 -> (n = 4 -> w <= tw) ->
  Z.of_nat (length offs) = tiles w tw * tiles h tl ->
  (forall tr tc, 0 <= tr < tiles h tl -> 0 <= tc < tiles w tw -> exists stored jw jh tile,
     from_offset file (nth (Z.to_nat (tr * tiles w tw + tc)) offs 0) stored /\ holds_jpeg debug n jw jh tile stored /\
     tile_shows n (tw * cpp) tl (w * cpp) h pic tr tc jw jh tile) ->
  exists img, lib_decode powf parse_f32 db file = Ok img /\ dng_shows l make model img w h cpp o m /\ is_image (i_data img) (w * cpp) h pic.
Proof.
  intros n tw tl offs pic Hc Hno To Tw Tl Htw Htl Hh Hw Hov Nw Nt H4 Hn Ht.
  apply (dng_whole (or_intror Hc) (fun d => is_image d (w * cpp) h pic)). intros root sub P.
  destruct (numbers_found _ _ _ _ _ _ P To) as (en & _ & E2 & E3 & E4).
  pose proof (number_range _ _ _ Tw) as Rt. pose proof (number_range _ _ _ (d_cpp _ _ _ _ _ _ _ _ D)) as Rc.
  pose proof (number_range _ _ _ (d_width _ _ _ _ _ _ _ _ D)) as Rw. pose proof (number_range _ _ _ (d_height _ _ _ _ _ _ _ _ D)) as Rh.
  assert (Hcpp : 0 < cpp) by nia.
  assert (Et : tiles (w * cpp) (tw * cpp) = tiles w tw).
  { unfold tiles. f_equal. symmetry. apply (Z.div_unique_pos (w * cpp - 1) (tw * cpp) _ (((w - 1) mod tw) * cpp + (cpp - 1))).
    - pose proof (Z.mod_pos_bound (w - 1) tw Htw). nia.
    - pose proof (Z.div_mod (w - 1) tw ltac:(lia)). nia. }
  assert (Bw : 0 < w * cpp < 2 ^ 64) by (clear - Hw Rw Rc; nia). assert (Bh : 0 < h < 2 ^ 64) by (clear - Hh Rh; lia). assert (Bt : 0 < tw * cpp < 2 ^ 64) by (clear - Htw Rt Rc Hcpp; nia).
  assert (B : 0 <= tiles w tw * tiles h tl < 2 ^ 64) by (apply tiles_bound; [exact Htw|exact Htl| |exact Hh|]; clear - Hov Hw Hcpp Hh; nia).
  destruct (tiles_decoded n (tw * cpp) tl (w * cpp) h pic file offs en) as (out & O1 & O2).
  - exact (df_size _ _ _ _ _ F).
  - intros k v Hk. apply (E4 k v Hk).
  - rewrite Et. exact Hn.
  - exact Bw.
  - exact Bh.
  - apply Bt.
  - exact Htl.
  - exact Nw.
  - exact Nt.
  - intros E. specialize (H4 E). clear - H4 Hcpp. nia.
  - rewrite Et. exact Ht.
  - exists out. split; [|exact O2]. rewrite Hc. cbn [Z.eqb Pos.eqb]. unfold dng_compressed. rewrite (proj2 (p_none _ _ _ _ P _ Hno)), E2.
    rewrite (proj2 (usize_read _ _ _ _ _ _ P Tw)). cbn [bind]. assert (U1 : umul tw cpp = Ok (tw * cpp)) by (apply arith_u_ok; clear - Bt; lia). rewrite U1. cbn [bind].
    rewrite (proj2 (usize_read _ _ _ _ _ _ P Tl)). cbn [bind]. rewrite (usub_ok (w * cpp) 1) by (clear - Bw; lia). cbn [bind].
    replace (tw * cpp =? 0) with false by (clear - Bt; lia). rewrite (usub_ok h 1) by (clear - Bh; lia). cbn [bind]. replace (tl =? 0) with false by (clear - Htl; lia). cbv zeta.
    change ((w * cpp - 1) / (tw * cpp) + 1) with (tiles (w * cpp) (tw * cpp)). rewrite Et in *. change ((h - 1) / tl + 1) with (tiles h tl).
    assert (U2 : umul (tiles w tw) (tiles h tl) = Ok (tiles w tw * tiles h tl)) by (apply arith_u_ok; exact B). rewrite U2. cbn [bind]. rewrite E3, Hn, Z.eqb_refl. cbn [negb]. exact O1.
Qed.
End Any.
