(** Whole files with nested directories (C59): Nikon and Panasonic. *)
From Coq Require Import String Ascii ZArith List Bool Reals Lia.
From Flocq Require Import Core BinarySingleNaN.
From Verif Require Import Base Num F32 Bytes Pumps Packed Tiff Transform Image Camera Clients Decoder Dec_Simple Dec_Pred Dec_Nef Dispatch.
From Verif Require Import Spec_Bits Spec_Image Spec_Pump Spec_Stream Spec_Packed Spec_Tiff Spec_Camera Spec_Known Spec_Huffman Spec_Ljpeg Spec_Pred Spec_Orf Spec_Nikon Spec_Curve Spec_Pana Spec_Meta Spec_File Spec_Tree.
From Verif Require Import P_Base P_Bits P_F32 P_Tiff3 P_Tiff5 P_Packed5 P_Black P_Meta1 P_Meta2 P_File1 P_File2 P_File3 P_File4 P_Tree1 P_Tree2 P_Tree3 P_Tree4.
From Verif Require Props_Packed Props_Pred Props_Pred3.
Import ListNotations.
Local Open Scope Z_scope.

Section Any.
Context {M : Mode} (powf : f32 -> f32 -> f32) (parse_f32 : string -> option f32).
Variables (db : list table) (l : loader).
Hypothesis Hl : loader_new db = Ok l.
Ltac enter G := eapply lib_decodes; [exact Hl|]; unfold decode; rewrite G; cbn [bind decoder_image].
Ltac picture Hp Hd := destruct (pictured _ _ _ _ _ _ _ _ _ _ _ _ ltac:(eassumption) (tf_bytes _ _ _ (np_file _ _ _ _ _ _ _ _ _ Hp)) Hd) as (sub & [F1 F2 S2 [W Rw] [H Rh] (off & O2 & O3 & O4) B]).


(** ** Nikon *)
Lemma nef_wb_seen : forall big fs root ra rb ba bb more, Sees big fs root -> has_fractions big fs T_NefWB0 ((ra, rb) :: (ba, bb) :: more) ->
  exists r b, nef_wb root = Ok (V4 r (flit 1 1) b NAN) /\ reads_fraction r ra rb /\ reads_fraction b ba bb.
Proof.
  intros big fs root ra rb ba bb more P H. destruct (see_fractions _ _ _ _ _ P H) as (en & E1 & _ & E3).
  destruct (E3 0%nat ra rb eq_refl) as (r & R1 & R2). destruct (E3 1%nat ba bb eq_refl) as (b & B1 & B2).
  change (Z.of_nat 0) with 0 in R1. change (Z.of_nat 1) with 1 in B1. exists r, b. unfold nef_wb. rewrite E1, R1. cbn [bind]. rewrite B1. auto.
Qed.
Lemma nef_nested : forall big ts raw model file w h o cam samples rest bps size ra rb ba bb more, bps = 12 \/ bps = 14 ->
  nested_photo l (nikon_mode bps) big ts "NIKON CORPORATION" model file o cam -> c_model cam <> "NIKON D100"%string ->
  picture_at ts file T_CFAPattern T_ImageWidth T_ImageLength T_StripOffsets raw w h (nikon_data big bps samples ++ rest) -> has_number (visible [raw]) T_BitsPerSample bps ->
  has_number (visible [raw]) T_Compression 1 -> has_number (visible [raw]) T_StripByteCounts size ->
  0 < w -> (bps = 12 -> Z.even w = true) -> Z.of_nat (length samples) = w * h -> Forall (Spec_Packed.fits (Z.to_nat bps)) samples ->
  has_fractions big (visible ts) T_NefWB0 ((ra, rb) :: (ba, bb) :: more) ->
  exists img, lib_decode powf parse_f32 db file = Ok img /\ shows img cam o w h /\ i_data img = samples /\ i_blacks img = c_blacks cam /\
    reads_fraction (e0 (i_wb img)) ra rb /\ nearest (e1 (i_wb img)) (IZR 1) /\ reads_fraction (e2 (i_wb img)) ba bb.
Proof.
  intros big ts raw model file w h o cam samples rest bps size ra rb ba bb more Hb Hp Hm Hd Tb Tc Ts Hw He Hn Hs Hwb. rewrite (nikon_mode_ok _ Hb) in Hp.
  destruct (nested_opened _ _ _ _ _ _ _ _ _ NEF Hp eq_refl) as (root & [G P C N]). picture Hp Hd.
  destruct (nef_wb_seen _ _ _ _ _ _ _ _ (n_sees _ _ _ P) Hwb) as (r & b & W1 & W2 & W3).
  destruct (finished cam o w h (V4 r (flit 1 1) b NAN) samples N) as (img & I1 & I2 & I3 & I4 & I5).
  exists img. split; [|rewrite I5; cbn [e0 e1 e2]; repeat (split; [assumption||apply near_1|]); assumption].
  enter G. unfold nef_image. rewrite F2. cbn [bind]. rewrite W, H, (proj1 (see_usize _ _ _ _ _ S2 Tb)), (proj1 (see_usize _ _ _ _ _ S2 Tc)). cbn [bind].
  rewrite C. cbn [bind]. rewrite O2, (proj1 (see_usize _ _ _ _ _ S2 Ts)). cbn [bind]. rewrite O3. cbn [bind].
  change (c_model (set_orientation o cam)) with (c_model cam). rewrite (proj2 (String.eqb_neq _ _) Hm). cbn [Z.eqb Pos.eqb bind orb].
  rewrite (n_end _ _ _ P). rewrite <- app_assoc in *. apply Forall_app in B. destruct B as [_ B]. unfold nikon_data.
  destruct Hb as [->| ->]; cbn [Z.eqb Pos.eqb] in *; change (Z.to_nat 12) with 12%nat in *; change (Z.to_nat 14) with 14%nat in *; destruct big; cbn [Bytes.little negb].
  - rewrite Props_Packed.C06_12be; [|lia|apply even_mod; auto|lia|exact Hn|exact Hs|exact B]. cbn [bind]. rewrite W1. cbn [bind]. rewrite I1. reflexivity.
  - rewrite Props_Packed.C06_12le; [|lia|apply even_mod; auto|lia|exact Hn|exact Hs|exact B]. cbn [bind]. rewrite W1. cbn [bind]. rewrite I1. reflexivity.
  - rewrite Props_Packed.C06_14be_in_16; [|lia|lia|exact Hn|exact Hs|exact B]. cbn [bind]. rewrite W1. cbn [bind]. rewrite I1. reflexivity.
  - rewrite Props_Packed.C06_14le_in_16; [|lia|lia|exact Hn|exact Hs|exact B]. cbn [bind]. rewrite W1. cbn [bind]. rewrite I1. reflexivity.
Qed.
Lemma nef_compressed_nested : forall big ts raw meta model file w h o cam data rest (bits14 : bool) size ra rb ba bb more v0 v1 skipped x1 x2 x3 x4 points tail curve pic,
  let bps := if bits14 then 14 else 12 in
  let note := nikon_note big v0 v1 skipped x1 x2 x3 x4 points tail in
  let start := nikon_start x1 x2 x3 x4 in
  nested_photo l (nikon_mode bps) big ts "NIKON CORPORATION" model file o cam -> c_model cam <> "NIKON D100"%string ->
  picture_at ts file T_CFAPattern T_ImageWidth T_ImageLength T_StripOffsets raw w h data -> has_number (visible [raw]) T_BitsPerSample bps ->
  has_number (visible [raw]) T_Compression 34713 -> has_number (visible [raw]) T_StripByteCounts size -> w * h * 14 < 2 ^ 64 -> size <> w * h * bps / 8 -> size <> w * h * 3 ->
  0 < w -> Z.even w = true ->
  directory_with ts T_NefMeta1 meta ->
  In (mkfield T_NefMeta2 7 note) (visible [meta]) \/ has_no (visible [meta]) T_NefMeta2 /\ In (mkfield T_NefMeta1 7 note) (visible [meta]) -> bytes note ->
  Z.of_nat (length skipped) = nikon_skipped v0 v1 -> sample x1 -> sample x2 -> sample x3 -> sample x4 -> samples points -> Z.of_nat (length points) < 65536 ->
  nikon_curve v0 v1 bps points curve -> increasing curve -> not_too_steep curve ->
  (v0 = 68 -> v1 = 32 -> 564 <= Z.of_nat (length note)) -> nikon_second big v0 v1 note = 0 \/ h <= nikon_second big v0 v1 note ->
  (forall r c, 0 <= r < h -> 0 <= c < w -> 0 <= pic r c < Z.of_nat (length curve) /\ Z.abs (step_of start pic r c) < 2 ^ bps) ->
  bits_of data = steps_coded (fun _ => code_of (nikon_code bits14 (v0 =? 70))) start pic w h ++ rest ->
  has_fractions big (visible ts) T_NefWB0 ((ra, rb) :: (ba, bb) :: more) ->
  exists img, lib_decode powf parse_f32 db file = Ok img /\ shows img cam o w h /\
    is_image (i_data img) w h (toned_picture curve pic w (Spec_Bits.number (firstn 24 (bits_of data ++ repeat false 24)))) /\ i_blacks img = c_blacks cam /\
    reads_fraction (e0 (i_wb img)) ra rb /\ nearest (e1 (i_wb img)) (IZR 1) /\ reads_fraction (e2 (i_wb img)) ba bb.
Proof.
  intros big ts raw meta model file w h o cam data rest bits14 size ra rb ba bb more v0 v1 skipped x1 x2 x3 x4 points tail curve pic bps note start
    Hp Hm Hd0 Tb Tc Ts Hov Hs1 Hs2 Hw He Hmeta Hnote Hby K1 K2 K3 K4 K5 K6 K7 K8 K9 K10 K11 K12 Hpic Hd Hwb.
  assert (Hb0 : bps = 12 \/ bps = 14) by (unfold bps; destruct bits14; auto). rewrite (nikon_mode_ok _ Hb0) in Hp. clear Hb0.
  destruct (nested_opened _ _ _ _ _ _ _ _ _ NEF Hp eq_refl) as (root & [G P C N]). picture Hp Hd0.
  destruct (nef_wb_seen _ _ _ _ _ _ _ _ (n_sees _ _ _ P) Hwb) as (r & b & W1 & W2 & W3).
  destruct (n_with _ _ _ P _ _ Hmeta) as (md & M1 & M2). pose proof (tree_sees _ _ _ M2) as M3.
  assert (exists en, (find_entry md T_NefMeta2 = Some en \/ find_entry md T_NefMeta2 = None /\ fetch_tag md T_NefMeta1 = Ok en) /\ e_data en = note) as (en & E1 & E2).
  { destruct Hnote as [Hn|[Hn1 Hn2]].
    - destruct (see_bytes _ _ _ _ _ _ M3 (or_intror eq_refl) Hn Hby) as (en & A1 & _ & A3 & _). exists en. auto.
    - destruct (see_bytes _ _ _ _ _ _ M3 (or_intror eq_refl) Hn2 Hby) as (en & A1 & _ & A3 & _). exists en. split; [right|exact A3]. split; [apply (s_no _ _ _ M3 _ Hn1)|]. unfold fetch_tag. rewrite A1. reflexivity. }
  destruct (padded_stream data) as (n & Hn & En).
  destruct (Props_Pred.C47_nikon_partial root md en big bits14 v0 v1 skipped x1 x2 x3 x4 points tail curve (data ++ zeros 16) w h pic (rest ++ repeat false n)) as (out & D1 & D2).
  - unfold fetch_ifd. rewrite M1. reflexivity.
  - apply M3.
  - exact E1.
  - exact E2.
  - exact Hby.
  - exact K1.
  - exact K2.
  - exact K3.
  - exact K4.
  - exact K5.
  - exact K6.
  - exact K7.
  - exact K8.
  - exact K9.
  - exact K10.
  - exact K11.
  - exact K12.
  - exact Hw.
  - exact He.
  - lia.
  - exact Hpic.
  - split; [exact B|discriminate].
  - rewrite En, Hd, <- app_assoc. reflexivity.
  - rewrite app_length, repeat_length. lia.
  - fold bps in D1. destruct (finished cam o w h (V4 r (flit 1 1) b NAN) out N) as (img & I1 & I2 & I3 & I4 & I5).
    exists img. rewrite I3. split; [|rewrite I5; cbn [e0 e1 e2]; split; [exact I2|split; [|split; [exact I4|split; [exact W2|split; [apply near_1|exact W3]]]]]].
    + enter G. unfold nef_image. rewrite F2. cbn [bind]. rewrite W, H, (proj1 (see_usize _ _ _ _ _ S2 Tb)), (proj1 (see_usize _ _ _ _ _ S2 Tc)). cbn [bind].
      rewrite C. cbn [bind]. rewrite O2, (proj1 (see_usize _ _ _ _ _ S2 Ts)). cbn [bind]. rewrite O3. cbn [bind].
      change (c_model (set_orientation o cam)) with (c_model cam). rewrite (proj2 (String.eqb_neq _ _) Hm). cbn [Z.eqb Pos.eqb bind orb].
      assert (Hb : bps = 12 \/ bps = 14) by (unfold bps; destruct bits14; auto).
      assert (U1 : umul w h = Ok (w * h)) by (apply arith_u_ok; nia).
      assert (U2 : umul (w * h) bps = Ok (w * h * bps)) by (apply arith_u_ok; nia).
      assert (U3 : umul (w * h) 3 = Ok (w * h * 3)) by (apply arith_u_ok; nia).
      rewrite U1. cbn [bind]. rewrite U2. cbn [bind]. replace (size =? w * h * bps / 8) with false by lia. rewrite U3. cbn [bind].
      replace (size =? w * h * 3) with false by lia. rewrite D1. cbn [bind]. rewrite W1. cbn [bind]. rewrite I1. reflexivity.
    + replace (firstn 24 (bits_of data ++ repeat false 24)) with (firstn 24 (stream MSB (data ++ zeros 16) 0)); [exact D2|]. rewrite En.
      destruct (Nat.le_exists_sub 24 n ltac:(lia)) as (k & -> & _). rewrite Nat.add_comm, repeat_app, app_assoc. set (z := bits_of data ++ repeat false 24).
      rewrite firstn_app. replace (24 - length z)%nat with 0%nat by (unfold z; rewrite app_length, repeat_length; lia). apply app_nil_r.
Qed.

(** ** Panasonic *)
Lemma rw2_wb_seen : forall big fs root r b, Sees big fs root -> has_number fs T_PanaWBsR r -> has_number fs T_PanaWBsB b ->
  rw2_wb root = Ok (V4 (f32_of r) (flit 256 1) (f32_of b) NAN) /\ 0 <= r < 2 ^ 32 /\ 0 <= b < 2 ^ 32.
Proof.
  intros big fs root r b P Hr Hb. destruct (see_number _ _ _ _ _ P Hr) as (er & R1 & _ & R2 & _ & R3). destruct (see_number _ _ _ _ _ P Hb) as (eb & B1 & _ & B2 & _ & B3).
  split; [|auto]. unfold rw2_wb, has_entry, fetch_tag. rewrite R1, B1. cbn [andb bind]. rewrite R2, B2. reflexivity.
Qed.
Lemma rw2_nested : forall big ts raw make model file w h o cam samples rest r b, panasonic_make make ->
  nested_photo l (aspect w h) big ts make model file o cam -> has_no (visible ts) T_PanaOffsets ->
  picture_at ts file T_StripOffsets T_PanaWidth T_PanaLength T_StripOffsets raw w h (pack16 false (map (fun v => 16 * v) samples) ++ rest) -> 0 < w -> 0 < h ->
  Z.of_nat (length samples) = w * h -> Forall (Spec_Packed.fits 12) samples ->
  has_number (visible ts) T_PanaWBsR r -> has_number (visible ts) T_PanaWBsB b ->
  exists img, lib_decode powf parse_f32 db file = Ok img /\ shows img cam o w h /\ i_data img = samples /\ i_blacks img = c_blacks cam /\ balance img r 256 b.
Proof.
  intros big ts raw make model file w h o cam samples rest r b Hm Hp Hno Hd Hw Hh Hn Hs Hr Hb. rewrite (aspect_ok _ _ Hh) in Hp.
  destruct (nested_opened _ _ _ _ _ _ _ _ _ RW2 Hp (rw2_make _ Hm)) as (root & [G P C N]). picture Hp Hd.
  destruct (rw2_wb_seen _ _ _ _ _ (n_sees _ _ _ P) Hr Hb) as (Wb & R1 & R2).
  destruct (finished cam o w h (V4 (f32_of r) (flit 256 1) (f32_of b) NAN) samples N) as (img & I1 & I2 & I3 & I4 & I5).
  exists img. split; [|split; [exact I2|split; [exact I3|split; [exact I4|]]]].
  - enter G. unfold rw2_image. rewrite (n_without _ _ _ P _ Hno). rewrite F2. cbn [bind]. rewrite W, H, O2. cbn [bind]. rewrite O3. cbn [bind].
    match goal with |- context [?a <=? ?b] => assert (Q : (a <=? b) = true) end.
    { apply Z.leb_le. unfold zlen. rewrite !app_length, pack16_size, map_length. lia. }
    rewrite Q. rewrite <- app_assoc in *. apply Forall_app in B. destruct B as [_ B].
    rewrite Props_Packed.C06_12le_left_in_16; [|lia|lia|exact Hn|exact Hs|exact B]. cbn [bind]. replace (h =? 0) with false by lia. rewrite C. cbn [bind]. rewrite Wb. exact I1.
  - unfold balance. rewrite I5. cbn [e0 e1 e2 e3]. repeat split; try (apply number_near; assumption); try apply near_256.
Qed.
Lemma rw2_compressed_nested : forall big ts raw make model data file w h o cam pic choice byte r b, panasonic_make make ->
  nested_photo l (aspect w h) big ts make model file o cam -> has_no (visible ts) T_PanaOffsets ->
  picture_at ts file T_StripOffsets T_PanaWidth T_PanaLength T_StripOffsets raw w h data -> 0 < w -> 0 < h -> w mod 14 = 0 ->
  16 * (w / 14 * h) <= zlen data -> zlen data + 16 < w * h * 3 / 2 ->
  (forall g, 0 <= g < w / 14 * h -> pana_group_fits (choice g) (byte g) (pana_values pic w g) /\
     bits_of (pana_group_bytes false data g) = pana_group_coded (choice g) (byte g) (pana_values pic w g)) ->
  has_number (visible ts) T_PanaWBsR r -> has_number (visible ts) T_PanaWBsB b ->
  exists img, lib_decode powf parse_f32 db file = Ok img /\ shows img cam o w h /\ is_image (i_data img) w h pic /\ i_blacks img = c_blacks cam /\ balance img r 256 b.
Proof.
  intros big ts raw make model data file w h o cam pic choice byte r b Hm Hp Hno Hd Hw Hh H14 Hn Hs Hg Hr Hb. rewrite (aspect_ok _ _ Hh) in Hp.
  destruct (nested_opened _ _ _ _ _ _ _ _ _ RW2 Hp (rw2_make _ Hm)) as (root & [G P C N]). picture Hp Hd.
  destruct (rw2_wb_seen _ _ _ _ _ (n_sees _ _ _ P) Hr Hb) as (Wb & R1 & R2).
  assert (L : zlen (data ++ zeros 16) = zlen data + 16) by (unfold zlen; rewrite app_length; change (length (zeros 16)) with 16%nat; lia).
  pose proof (tf_size _ _ _ (np_file _ _ _ _ _ _ _ _ _ Hp)) as Z1.
  assert (Ld : zlen data + 16 < 2 ^ 32).
  { assert (0 <= off) by (destruct (pa_data _ _ _ _ _ _ _ _ _ _ Hd) as (off' & V1 & V2); pose proof (proj1 (see_usize _ _ _ _ _ S2 V1)) as V3; rewrite O2 in V3; injection V3 as ->; apply V2). unfold zlen in *. lia. }
  destruct (Props_Pred3.C47_panasonic pic w h choice byte Hw ltac:(lia) H14 (fun g I => proj1 (Hg g I)) (data ++ zeros 16) B) as (out & D1 & D2).
  { rewrite L. lia. }
  { lia. }
  { intros g I. rewrite pana_bytes_kept; [apply (Hg g I)|lia|]. intros i Hi. unfold pana_place. nia. }
  destruct (finished cam o w h (V4 (f32_of r) (flit 256 1) (f32_of b) NAN) out N) as (img & I1 & I2 & I3 & I4 & I5).
  exists img. rewrite I3. split; [|split; [exact I2|split; [exact D2|split; [exact I4|]]]].
  - enter G. unfold rw2_image. rewrite (n_without _ _ _ P _ Hno). rewrite F2. cbn [bind]. rewrite W, H, O2. cbn [bind]. rewrite O3. cbn [bind]. rewrite L.
    assert (Q2 : w * h * 3 / 2 <= w * h * 2) by (apply Z.div_le_upper_bound; nia).
    replace (w * h * 2 <=? zlen data + 16) with false by lia. replace (w * h * 3 / 2 <=? zlen data + 16) with false by lia. rewrite D1. cbn [bind].
    replace (h =? 0) with false by lia. rewrite C. cbn [bind]. rewrite Wb. exact I1.
  - unfold balance. rewrite I5. cbn [e0 e1 e2 e3]. repeat split; try (apply number_near; assumption); try apply near_256.
Qed.
(** Data in blocks of two parts: all pixels but those of one group in 1024 *)
Lemma rw2_split_nested : forall big ts raw make model data file w h o cam pic choice byte r b, panasonic_make make ->
  nested_photo l (aspect w h) big ts make model file o cam ->
  picture_at ts file T_PanaOffsets T_PanaWidth T_PanaLength T_PanaOffsets raw w h data -> 0 < w -> 0 < h -> w mod 14 = 0 ->
  16384 * ((w / 14 * h + 1023) / 1024) <= zlen data ->
  (forall g, 0 <= g < w / 14 * h -> pana_group_fits (choice g) (byte g) (pana_values pic w g) /\
     bits_of (pana_group_bytes true data g) = pana_group_coded (choice g) (byte g) (pana_values pic w g)) ->
  has_number (visible ts) T_PanaWBsR r -> has_number (visible ts) T_PanaWBsB b ->
  exists img, lib_decode powf parse_f32 db file = Ok img /\ shows img cam o w h /\ zlen (i_data img) = w * h /\
    (forall r c, 0 <= r < h -> 0 <= c < w -> (r * w + c) / 14 mod 1024 <> 512 -> nth (Z.to_nat (r * w + c)) (i_data img) 0 = pic r c) /\
    i_blacks img = c_blacks cam /\ balance img r 256 b.
Proof.
  intros big ts raw make model data file w h o cam pic choice byte r b Hm Hp Hd Hw Hh H14 Hn Hg Hr Hb. rewrite (aspect_ok _ _ Hh) in Hp.
  destruct (nested_opened _ _ _ _ _ _ _ _ _ RW2 Hp (rw2_make _ Hm)) as (root & [G P C N]). picture Hp Hd.
  destruct (rw2_wb_seen _ _ _ _ _ (n_sees _ _ _ P) Hr Hb) as (Wb & R1 & R2).
  assert (L : zlen (data ++ zeros 16) = zlen data + 16) by (unfold zlen; rewrite app_length; change (length (zeros 16)) with 16%nat; lia).
  pose proof (tf_size _ _ _ (np_file _ _ _ _ _ _ _ _ _ Hp)) as Z1.
  assert (Ld : zlen data + 16 < 2 ^ 32).
  { assert (0 <= off) by (destruct (pa_data _ _ _ _ _ _ _ _ _ _ Hd) as (off' & V1 & V2); pose proof (proj1 (see_usize _ _ _ _ _ S2 V1)) as V3; rewrite O2 in V3; injection V3 as ->; apply V2). unfold zlen in *. lia. }
  destruct (Props_Pred3.C47_panasonic_split_partial pic w h choice byte Hw ltac:(lia) H14 (fun g I => proj1 (Hg g I)) (data ++ zeros 16) B) as (out & D1 & D2 & D3).
  { rewrite L. lia. }
  { lia. }
  { intros g I. rewrite pana_bytes_kept; [apply (Hg g I)|lia|]. intros i Hi. unfold pana_place.
    pose proof (Z.mod_pos_bound ((16 * g + 15 - i) mod 16384 + 8184) 16384 ltac:(lia)). assert (0 <= (16 * g + 15 - i) / 16384) by (apply Z.div_pos; lia).
    assert ((16 * g + 15 - i) / 16384 < (w / 14 * h + 1023) / 1024); [|nia].
    assert ((16 * g + 15 - i) / 16384 < g / 1024 + 1) by (apply Z.div_lt_upper_bound; [lia|]; pose proof (Z.div_mod g 1024 ltac:(lia)); pose proof (Z.mod_pos_bound g 1024 ltac:(lia)); lia).
    assert (g / 1024 + 1 <= (w / 14 * h + 1023) / 1024); [|lia]. rewrite <- Z.div_add by lia. apply Z.div_le_mono; lia. }
  destruct (finished cam o w h (V4 (f32_of r) (flit 256 1) (f32_of b) NAN) out N) as (img & I1 & I2 & I3 & I4 & I5).
  exists img. rewrite I3. split; [|split; [exact I2|split; [exact D2|split; [exact D3|split; [exact I4|]]]]].
  - enter G. unfold rw2_image. rewrite F1, W, H, O2. cbn [bind]. rewrite O3. cbn [bind]. rewrite D1. cbn [bind].
    replace (h =? 0) with false by lia. rewrite C. cbn [bind]. rewrite Wb. exact I1.
  - unfold balance. rewrite I5. cbn [e0 e1 e2 e3]. repeat split; try (apply number_near; assumption); try apply near_256.
Qed.
End Any.
