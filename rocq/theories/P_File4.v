(** Whole files from Nikon and Panasonic (C53). *)
From Coq Require Import String Ascii ZArith List Bool Reals Lia.
From Flocq Require Import Core BinarySingleNaN.
From Verif Require Import Base Num F32 Bytes Pumps Packed Tiff Transform Image Camera Clients Decoder Dec_Simple Dec_Pred Dec_Nef Dispatch.
From Verif Require Import Spec_Bits Spec_Image Spec_Pump Spec_Stream Spec_Packed Spec_Tiff Spec_Camera Spec_Known Spec_Huffman Spec_Ljpeg Spec_Pred Spec_Nikon Spec_Curve Spec_Pana Spec_Meta Spec_File.
From Verif Require Import P_Base P_Bits P_F32 P_Tiff3 P_Tiff5 P_Packed5 P_Black P_Meta1 P_Meta2 P_File1 P_File2 P_File3.
From Verif Require Props_Packed Props_Pred Props_Pred3.
Import ListNotations.
Local Open Scope Z_scope.

Lemma pack16_size : forall big l, length (pack16 big l) = (2 * length l)%nat.
Proof. intros big l. unfold pack16. induction l as [|a t IH]; [reflexivity|]. cbn [flat_map]. rewrite app_length, IH. destruct big; cbn [length]; lia. Qed.

Section Any.
Context {M : Mode}.
(** Fractions *)
Lemma fractions_found : forall big fs root sub tag qs, Parsed big fs root sub -> has_fractions big fs tag qs ->
  exists en, find_entry root tag = Some en /\ find_entry sub tag = Some en /\ e_count en = Z.of_nat (length qs) /\
    forall k a b, nth_error qs k = Some (a, b) -> exists x, get_f32 en (Z.of_nat k) = Ok x /\ reads_fraction x a b.
Proof.
  intros big fs root sub tag qs P [Hf Hq]. destruct (p_root _ _ _ _ P _ Hf) as (en & E1 & E2 & E3). exists en. split; [exact E1|]. split; [exact E2|]. split.
  - destruct E3 as (_ & _ & C & _). rewrite C. unfold zlen. cbn [f_vals]. rewrite map_length. reflexivity.
  - intros k a b Hk. eapply get_f32_holds; [exact E3|reflexivity| |exact Hk]. cbn [f_typ].
    eapply Forall_impl; [|exact Hq]. intros q [Q1 Q2]. split; left; auto.
Qed.
Lemma bytes_found : forall big fs root sub tag vs, Parsed big fs root sub -> In (mkfield tag 7 vs) fs -> bytes vs ->
  exists en, find_entry root tag = Some en /\ find_entry sub tag = Some en /\ e_count en = Z.of_nat (length vs) /\ e_data en = vs.
Proof.
  intros big fs root sub tag vs P Hf Hv. destruct (p_root _ _ _ _ P _ Hf) as (en & E1 & E2 & (_ & _ & C & D & _)). exists en.
  split; [exact E1|]. split; [exact E2|]. split; [exact C|]. rewrite D. unfold field_data. cbn [f_typ f_vals type_size]. change (Z.to_nat 1) with 1%nat.
  apply text_data. exact Hv.
Qed.
Lemma near_1 : nearest (flit 1 1) (IZR 1).
Proof.
  destruct (of_exact 1 ltac:(lia)) as [Fa [Va _]].
  assert (Q : (B2R (f32_of 1) / B2R (f32_of 1))%R = IZR 1) by (rewrite Va; unfold Rdiv; rewrite Rinv_1; apply Rmult_1_r).
  destruct (div_val (f32_of 1) (f32_of 1) Fa) as [F V]; [rewrite Va; apply not_0_IZR; lia|rewrite Q, <- abs_IZR; apply IZR_le; lia|].
  apply rn_near; [exact F|]. unfold flit, fdiv. rewrite V, Q. reflexivity.
Qed.

Context (powf : f32 -> f32 -> f32) (parse_f32 : string -> option f32).
Variables (db : list table) (l : loader).
Hypothesis Hl : loader_new db = Ok l.
Ltac enter G := eapply lib_decodes; [exact Hl|]; unfold decode; rewrite G; cbn [bind decoder_image].

(** ** Nikon *)
Lemma nef_wb_read : forall big fs root sub ra rb ba bb more, Parsed big fs root sub -> has_fractions big fs T_NefWB0 ((ra, rb) :: (ba, bb) :: more) ->
  exists r b, nef_wb root = Ok (V4 r (flit 1 1) b NAN) /\ reads_fraction r ra rb /\ reads_fraction b ba bb.
Proof.
  intros big fs root sub ra rb ba bb more P H. destruct (fractions_found _ _ _ _ _ _ P H) as (en & E1 & _ & _ & E3).
  destruct (E3 0%nat ra rb eq_refl) as (r & R1 & R2). destruct (E3 1%nat ba bb eq_refl) as (b & B1 & B2).
  change (Z.of_nat 0) with 0 in R1. change (Z.of_nat 1) with 1 in B1. exists r, b. unfold nef_wb. rewrite E1, R1. cbn [bind]. rewrite B1. auto.
Qed.
Lemma nikon_mode_ok : forall bps, bps = 12 \/ bps = 14 -> nikon_mode bps = nef_mode bps.
Proof. intros bps [-> | ->]; reflexivity. Qed.
Lemma aspect_ok : forall w h, 0 < h -> aspect w h = rw2_mode w h.
Proof.
  intros w h Hh. unfold aspect, rw2_mode. cbv zeta.
  assert (E : forall k, (100 * w <? k * h) = (w * 100 / h <? k)).
  { intros k. pose proof (Z.div_lt_upper_bound (w * 100) h k Hh) as A. pose proof (Z.div_le_lower_bound (w * 100) h k Hh) as B.
    destruct (Z.ltb_spec (100 * w) (k * h)); destruct (Z.ltb_spec (w * 100 / h) k); try reflexivity; exfalso.
    - assert (w * 100 / h < k) by (apply A; lia). lia.
    - assert (k <= w * 100 / h) by (apply B; lia). lia. }
  rewrite !E. reflexivity.
Qed.
Lemma nef_file : forall big fs model gap file w h o cam samples rest bps size ra rb ba bb more, bps = 12 \/ bps = 14 ->
  photo l (nikon_mode bps) big fs "NIKON CORPORATION" model T_StripOffsets gap (nikon_data big bps samples ++ rest) file o cam -> c_model cam <> "NIKON D100"%string ->
  In T_CFAPattern (map f_tag fs) -> has_number fs T_ImageWidth w -> has_number fs T_ImageLength h -> has_number fs T_BitsPerSample bps ->
  has_number fs T_Compression 1 -> has_number fs T_StripByteCounts size ->
  0 < w -> (bps = 12 -> Z.even w = true) -> Z.of_nat (length samples) = w * h -> Forall (Spec_Packed.fits (Z.to_nat bps)) samples ->
  has_fractions big fs T_NefWB0 ((ra, rb) :: (ba, bb) :: more) ->
  exists img, lib_decode powf parse_f32 db file = Ok img /\ shows img cam o w h /\ i_data img = samples /\ i_blacks img = c_blacks cam /\
    reads_fraction (e0 (i_wb img)) ra rb /\ nearest (e1 (i_wb img)) (IZR 1) /\ reads_fraction (e2 (i_wb img)) ba bb.
Proof.
  intros big fs model gap file w h o cam samples rest bps size ra rb ba bb more Hb Hp Hm Hc Tw Th Tb Tc Ts Hw He Hn Hs Hwb. rewrite (nikon_mode_ok _ Hb) in Hp.
  destruct (photo_opened _ _ _ _ _ _ _ _ _ _ _ _ NEF Hp eq_refl) as (root & sub & [G P (off & O1 & O2 & O3) C B N]).
  destruct (size_read _ _ _ _ _ _ P Tw) as [W Rw]. destruct (size_read _ _ _ _ _ _ P Th) as [H Rh].
  destruct (nef_wb_read _ _ _ _ _ _ _ _ _ P Hwb) as (r & b & W1 & W2 & W3).
  destruct (finished cam o w h (V4 r (flit 1 1) b NAN) samples N) as (img & I1 & I2 & I3 & I4 & I5).
  exists img. split; [|rewrite I5; cbn [e0 e1 e2]; repeat (split; [assumption||apply near_1|]); assumption].
  enter G. unfold nef_image. rewrite (ifd_found _ _ _ _ _ P Hc). cbn [bind]. rewrite W, H, (proj2 (usize_read _ _ _ _ _ _ P Tb)), (proj2 (usize_read _ _ _ _ _ _ P Tc)). cbn [bind].
  rewrite C. cbn [bind]. rewrite O2, (proj2 (usize_read _ _ _ _ _ _ P Ts)). cbn [bind]. rewrite O3. cbn [bind].
  change (c_model (set_orientation o cam)) with (c_model cam). rewrite (proj2 (String.eqb_neq _ _) Hm). cbn [Z.eqb Pos.eqb bind orb].
  rewrite (proj1 (p_end _ _ _ _ P)). rewrite <- app_assoc in *. apply Forall_app in B. destruct B as [_ B]. unfold nikon_data.
  destruct Hb as [->| ->]; cbn [Z.eqb Pos.eqb] in *; change (Z.to_nat 12) with 12%nat in *; change (Z.to_nat 14) with 14%nat in *; destruct big; cbn [Bytes.little negb].
  - rewrite Props_Packed.C06_12be; [|lia|apply even_mod; auto|lia|exact Hn|exact Hs|exact B]. cbn [bind]. rewrite W1. cbn [bind]. rewrite I1. reflexivity.
  - rewrite Props_Packed.C06_12le; [|lia|apply even_mod; auto|lia|exact Hn|exact Hs|exact B]. cbn [bind]. rewrite W1. cbn [bind]. rewrite I1. reflexivity.
  - rewrite Props_Packed.C06_14be_in_16; [|lia|lia|exact Hn|exact Hs|exact B]. cbn [bind]. rewrite W1. cbn [bind]. rewrite I1. reflexivity.
  - rewrite Props_Packed.C06_14le_in_16; [|lia|lia|exact Hn|exact Hs|exact B]. cbn [bind]. rewrite W1. cbn [bind]. rewrite I1. reflexivity.
Qed.
Lemma nef_compressed_file : forall big fs model gap file w h o cam data rest (bits14 : bool) size ra rb ba bb more v0 v1 skipped x1 x2 x3 x4 points tail curve pic,
  let bps := if bits14 then 14 else 12 in
  let note := nikon_note big v0 v1 skipped x1 x2 x3 x4 points tail in
  let start := nikon_start x1 x2 x3 x4 in
  photo l (nikon_mode bps) big fs "NIKON CORPORATION" model T_StripOffsets gap data file o cam -> c_model cam <> "NIKON D100"%string ->
  In T_CFAPattern (map f_tag fs) -> has_number fs T_ImageWidth w -> has_number fs T_ImageLength h -> has_number fs T_BitsPerSample bps ->
  has_number fs T_Compression 34713 -> has_number fs T_StripByteCounts size -> w * h * 14 < 2 ^ 64 -> size <> w * h * bps / 8 -> size <> w * h * 3 ->
  0 < w -> Z.even w = true ->
  In (mkfield T_NefMeta1 7 note) fs -> has_no fs T_NefMeta2 -> bytes note ->
  Z.of_nat (length skipped) = nikon_skipped v0 v1 -> sample x1 -> sample x2 -> sample x3 -> sample x4 -> samples points -> Z.of_nat (length points) < 65536 ->
  nikon_curve v0 v1 bps points curve -> increasing curve -> not_too_steep curve ->
  (v0 = 68 -> v1 = 32 -> 564 <= Z.of_nat (length note)) -> nikon_second big v0 v1 note = 0 \/ h <= nikon_second big v0 v1 note ->
  (forall r c, 0 <= r < h -> 0 <= c < w -> 0 <= pic r c < Z.of_nat (length curve) /\ Z.abs (step_of start pic r c) < 2 ^ bps) ->
  bits_of data = steps_coded (fun _ => code_of (nikon_code bits14 (v0 =? 70))) start pic w h ++ rest ->
  has_fractions big fs T_NefWB0 ((ra, rb) :: (ba, bb) :: more) ->
  exists img, lib_decode powf parse_f32 db file = Ok img /\ shows img cam o w h /\
    is_image (i_data img) w h (toned_picture curve pic w (Spec_Bits.number (firstn 24 (bits_of data ++ repeat false 24)))) /\ i_blacks img = c_blacks cam /\
    reads_fraction (e0 (i_wb img)) ra rb /\ nearest (e1 (i_wb img)) (IZR 1) /\ reads_fraction (e2 (i_wb img)) ba bb.
Proof.
  intros big fs model gap file w h o cam data rest bits14 size ra rb ba bb more v0 v1 skipped x1 x2 x3 x4 points tail curve pic bps note start
    Hp Hm Hc Tw Th Tb Tc Ts Hov Hs1 Hs2 Hw He Hnote Hno Hby K1 K2 K3 K4 K5 K6 K7 K8 K9 K10 K11 K12 Hpic Hd Hwb.
  assert (Hb0 : bps = 12 \/ bps = 14) by (unfold bps; destruct bits14; auto). rewrite (nikon_mode_ok _ Hb0) in Hp. clear Hb0.
  destruct (photo_opened _ _ _ _ _ _ _ _ _ _ _ _ NEF Hp eq_refl) as (root & sub & [G P (off & O1 & O2 & O3) C B N]).
  destruct (size_read _ _ _ _ _ _ P Tw) as [W Rw]. destruct (size_read _ _ _ _ _ _ P Th) as [H Rh].
  destruct (nef_wb_read _ _ _ _ _ _ _ _ _ P Hwb) as (r & b & W1 & W2 & W3).
  destruct (bytes_found _ _ _ _ _ _ P Hnote Hby) as (en & E1 & E2 & E3 & E4).
  destruct (padded_stream data) as (n & Hn & En).
  destruct (Props_Pred.C47_nikon_partial root sub en big bits14 v0 v1 skipped x1 x2 x3 x4 points tail curve (data ++ zeros 16) w h pic (rest ++ repeat false n)) as (out & D1 & D2).
  - apply (ifd_found _ _ _ _ _ P). apply (in_map f_tag) in Hnote. exact Hnote.
  - apply P.
  - right. split; [apply (p_none _ _ _ _ P _ Hno)|]. unfold fetch_tag. rewrite E2. reflexivity.
  - exact E4.
  - exact Hby.
  - exact K1.
  - exact K2.
  - exact K3.
  - exact K4.
  - exact K5.
  - exact K6.
  - exact K7.
  - exact K8.
  - exact K9.
  - exact K10.
  - exact K11.
  - exact K12.
  - exact Hw.
  - exact He.
  - lia.
  - exact Hpic.
  - split; [exact B|discriminate].
  - rewrite En, Hd, <- app_assoc. reflexivity.
  - rewrite app_length, repeat_length. lia.
  - fold bps in D1. destruct (finished cam o w h (V4 r (flit 1 1) b NAN) out N) as (img & I1 & I2 & I3 & I4 & I5).
    exists img. rewrite I3. split; [|rewrite I5; cbn [e0 e1 e2]; split; [exact I2|split; [|split; [exact I4|split; [exact W2|split; [apply near_1|exact W3]]]]]].
    + enter G. unfold nef_image. rewrite (ifd_found _ _ _ _ _ P Hc). cbn [bind]. rewrite W, H, (proj2 (usize_read _ _ _ _ _ _ P Tb)), (proj2 (usize_read _ _ _ _ _ _ P Tc)). cbn [bind].
      rewrite C. cbn [bind]. rewrite O2, (proj2 (usize_read _ _ _ _ _ _ P Ts)). cbn [bind]. rewrite O3. cbn [bind].
      change (c_model (set_orientation o cam)) with (c_model cam). rewrite (proj2 (String.eqb_neq _ _) Hm). cbn [Z.eqb Pos.eqb bind orb].
      assert (Hb : bps = 12 \/ bps = 14) by (unfold bps; destruct bits14; auto).
      assert (U1 : umul w h = Ok (w * h)) by (apply arith_u_ok; nia).
      assert (U2 : umul (w * h) bps = Ok (w * h * bps)) by (apply arith_u_ok; nia).
      assert (U3 : umul (w * h) 3 = Ok (w * h * 3)) by (apply arith_u_ok; nia).
      rewrite U1. cbn [bind]. rewrite U2. cbn [bind]. replace (size =? w * h * bps / 8) with false by lia. rewrite U3. cbn [bind].
      replace (size =? w * h * 3) with false by lia. rewrite D1. cbn [bind]. rewrite W1. cbn [bind]. rewrite I1. reflexivity.
    + replace (firstn 24 (bits_of data ++ repeat false 24)) with (firstn 24 (stream MSB (data ++ zeros 16) 0)); [exact D2|]. rewrite En.
      destruct (Nat.le_exists_sub 24 n ltac:(lia)) as (k & -> & _). rewrite Nat.add_comm, repeat_app, app_assoc. set (z := bits_of data ++ repeat false 24).
      rewrite firstn_app. replace (24 - length z)%nat with 0%nat by (unfold z; rewrite app_length, repeat_length; lia). apply app_nil_r.
Qed.

(** ** Panasonic *)
Lemma rw2_make : forall m, panasonic_make m -> lookup_make makes m = Some RW2.
Proof. intros m [<-|[<-|[]]]; reflexivity. Qed.
Lemma rw2_wb_read : forall big fs root sub r b, Parsed big fs root sub -> has_number fs T_PanaWBsR r -> has_number fs T_PanaWBsB b ->
  rw2_wb root = Ok (V4 (f32_of r) (flit 256 1) (f32_of b) NAN) /\ 0 <= r < 2 ^ 32 /\ 0 <= b < 2 ^ 32.
Proof.
  intros big fs root sub r b P Hr Hb. destruct (number_read _ _ _ _ _ _ P Hr) as (er & R1 & _ & _ & R2). destruct (number_read _ _ _ _ _ _ P Hb) as (eb & B1 & _ & _ & B2).
  split; [|split; eapply number_range; eassumption]. unfold rw2_wb, has_entry, fetch_tag. rewrite R1, B1. cbn [andb bind]. rewrite R2, B2. reflexivity.
Qed.
Lemma rw2_file : forall big fs make model gap file w h o cam samples rest r b, panasonic_make make ->
  photo l (aspect w h) big fs make model T_StripOffsets gap (pack16 false (map (fun v => 16 * v) samples) ++ rest) file o cam ->
  has_no fs T_PanaOffsets -> has_number fs T_PanaWidth w -> has_number fs T_PanaLength h -> 0 < w -> 0 < h ->
  Z.of_nat (length samples) = w * h -> Forall (Spec_Packed.fits 12) samples ->
  has_number fs T_PanaWBsR r -> has_number fs T_PanaWBsB b ->
  exists img, lib_decode powf parse_f32 db file = Ok img /\ shows img cam o w h /\ i_data img = samples /\ i_blacks img = c_blacks cam /\ balance img r 256 b.
Proof.
  intros big fs make model gap file w h o cam samples rest r b Hm Hp Hno Tw Th Hw Hh Hn Hs Hr Hb. rewrite (aspect_ok _ _ Hh) in Hp.
  destruct (photo_opened _ _ _ _ _ _ _ _ _ _ _ _ RW2 Hp (rw2_make _ Hm)) as (root & sub & [G P (off & O1 & O2 & O3) C B N]).
  destruct (size_read _ _ _ _ _ _ P Tw) as [W Rw]. destruct (size_read _ _ _ _ _ _ P Th) as [H Rh].
  destruct (rw2_wb_read _ _ _ _ _ _ P Hr Hb) as (Wb & R1 & R2).
  destruct (finished cam o w h (V4 (f32_of r) (flit 256 1) (f32_of b) NAN) samples N) as (img & I1 & I2 & I3 & I4 & I5).
  exists img. split; [|split; [exact I2|split; [exact I3|split; [exact I4|]]]].
  - enter G. unfold rw2_image. rewrite (p_absent _ _ _ _ P _ Hno).
    assert (Hs0 : In T_StripOffsets (map f_tag fs)) by (eapply number_tag; exact (rf_start _ _ _ _ _ _ _ _ (ph_file _ _ _ _ _ _ _ _ _ _ _ _ Hp))).
    rewrite (ifd_found _ _ _ _ _ P Hs0). cbn [bind]. rewrite W, H, O2. cbn [bind]. rewrite O3. cbn [bind].
    match goal with |- context [?a <=? ?b] => assert (Q : (a <=? b) = true) end.
    { apply Z.leb_le. unfold zlen. rewrite !app_length, pack16_size, map_length. lia. }
    rewrite Q. rewrite <- app_assoc in *. apply Forall_app in B. destruct B as [_ B].
    rewrite Props_Packed.C06_12le_left_in_16; [|lia|lia|exact Hn|exact Hs|exact B]. cbn [bind]. replace (h =? 0) with false by lia. rewrite C. cbn [bind]. rewrite Wb. exact I1.
  - unfold balance. rewrite I5. cbn [e0 e1 e2 e3]. repeat split; try (apply number_near; assumption); try apply near_256.
Qed.
Lemma pana_bytes_kept : forall split buf more g, 0 <= g -> (forall i, 0 <= i < 16 -> 0 <= pana_place split (16 * g + 15 - i) < zlen buf) ->
  pana_group_bytes split (buf ++ more) g = pana_group_bytes split buf g.
Proof.
  intros split buf more g Hg H. apply map_ext_in. intros i Hi. unfold upto in Hi. apply in_map_iff in Hi. destruct Hi as (k & <- & Hk). apply in_seq in Hk. specialize (H (Z.of_nat k) ltac:(lia)). unfold zlen in H.
  apply app_nth1. lia.
Qed.
Lemma rw2_compressed_file : forall big fs make model gap data file w h o cam pic choice byte r b, panasonic_make make ->
  photo l (aspect w h) big fs make model T_StripOffsets gap data file o cam ->
  has_no fs T_PanaOffsets -> has_number fs T_PanaWidth w -> has_number fs T_PanaLength h -> 0 < w -> 0 < h -> w mod 14 = 0 ->
  16 * (w / 14 * h) <= zlen data -> zlen data + 16 < w * h * 3 / 2 ->
  (forall g, 0 <= g < w / 14 * h -> pana_group_fits (choice g) (byte g) (pana_values pic w g) /\
     bits_of (pana_group_bytes false data g) = pana_group_coded (choice g) (byte g) (pana_values pic w g)) ->
  has_number fs T_PanaWBsR r -> has_number fs T_PanaWBsB b ->
  exists img, lib_decode powf parse_f32 db file = Ok img /\ shows img cam o w h /\ is_image (i_data img) w h pic /\ i_blacks img = c_blacks cam /\ balance img r 256 b.
Proof.
  intros big fs make model gap data file w h o cam pic choice byte r b Hm Hp Hno Tw Th Hw Hh H14 Hn Hs Hg Hr Hb. rewrite (aspect_ok _ _ Hh) in Hp.
  destruct (photo_opened _ _ _ _ _ _ _ _ _ _ _ _ RW2 Hp (rw2_make _ Hm)) as (root & sub & [G P (off & O1 & O2 & O3) C B N]).
  destruct (size_read _ _ _ _ _ _ P Tw) as [W Rw]. destruct (size_read _ _ _ _ _ _ P Th) as [H Rh].
  destruct (rw2_wb_read _ _ _ _ _ _ P Hr Hb) as (Wb & R1 & R2).
  assert (L : zlen (data ++ zeros 16) = zlen data + 16) by (unfold zlen; rewrite app_length; change (length (zeros 16)) with 16%nat; lia).
  pose proof (rf_size _ _ _ _ _ _ _ _ (ph_file _ _ _ _ _ _ _ _ _ _ _ _ Hp)) as Z1. pose proof (rf_file _ _ _ _ _ _ _ _ (ph_file _ _ _ _ _ _ _ _ _ _ _ _ Hp)) as Z2.
  assert (Ld : zlen data + 16 < 2 ^ 32) by (rewrite Z2, !app_length in Z1; unfold zlen; lia).
  destruct (Props_Pred3.C47_panasonic pic w h choice byte Hw ltac:(lia) H14 (fun g I => proj1 (Hg g I)) (data ++ zeros 16) B) as (out & D1 & D2).
  { rewrite L. lia. }
  { lia. }
  { intros g I. rewrite pana_bytes_kept; [apply (Hg g I)|lia|]. intros i Hi. unfold pana_place. nia. }
  destruct (finished cam o w h (V4 (f32_of r) (flit 256 1) (f32_of b) NAN) out N) as (img & I1 & I2 & I3 & I4 & I5).
  exists img. rewrite I3. split; [|split; [exact I2|split; [exact D2|split; [exact I4|]]]].
  - enter G. unfold rw2_image. rewrite (p_absent _ _ _ _ P _ Hno).
    assert (Hs0 : In T_StripOffsets (map f_tag fs)) by (eapply number_tag; exact (rf_start _ _ _ _ _ _ _ _ (ph_file _ _ _ _ _ _ _ _ _ _ _ _ Hp))).
    rewrite (ifd_found _ _ _ _ _ P Hs0). cbn [bind]. rewrite W, H, O2. cbn [bind]. rewrite O3. cbn [bind]. rewrite L.
    assert (Q2 : w * h * 3 / 2 <= w * h * 2) by (apply Z.div_le_upper_bound; nia).
    replace (w * h * 2 <=? zlen data + 16) with false by lia. replace (w * h * 3 / 2 <=? zlen data + 16) with false by lia. rewrite D1. cbn [bind].
    replace (h =? 0) with false by lia. rewrite C. cbn [bind]. rewrite Wb. exact I1.
  - unfold balance. rewrite I5. cbn [e0 e1 e2 e3]. repeat split; try (apply number_near; assumption); try apply near_256.
Qed.
(** Data in blocks of two parts: all pixels but those of one group in 1024 *)
Lemma rw2_split_file : forall big fs make model gap data file w h o cam pic choice byte r b, panasonic_make make ->
  photo l (aspect w h) big fs make model T_PanaOffsets gap data file o cam ->
  has_number fs T_PanaWidth w -> has_number fs T_PanaLength h -> 0 < w -> 0 < h -> w mod 14 = 0 ->
  16384 * ((w / 14 * h + 1023) / 1024) <= zlen data ->
  (forall g, 0 <= g < w / 14 * h -> pana_group_fits (choice g) (byte g) (pana_values pic w g) /\
     bits_of (pana_group_bytes true data g) = pana_group_coded (choice g) (byte g) (pana_values pic w g)) ->
  has_number fs T_PanaWBsR r -> has_number fs T_PanaWBsB b ->
  exists img, lib_decode powf parse_f32 db file = Ok img /\ shows img cam o w h /\ zlen (i_data img) = w * h /\
    (forall r c, 0 <= r < h -> 0 <= c < w -> (r * w + c) / 14 mod 1024 <> 512 -> nth (Z.to_nat (r * w + c)) (i_data img) 0 = pic r c) /\
    i_blacks img = c_blacks cam /\ balance img r 256 b.
Proof.
  intros big fs make model gap data file w h o cam pic choice byte r b Hm Hp Tw Th Hw Hh H14 Hn Hg Hr Hb. rewrite (aspect_ok _ _ Hh) in Hp.
  destruct (photo_opened _ _ _ _ _ _ _ _ _ _ _ _ RW2 Hp (rw2_make _ Hm)) as (root & sub & [G P (off & O1 & O2 & O3) C B N]).
  destruct (size_read _ _ _ _ _ _ P Tw) as [W Rw]. destruct (size_read _ _ _ _ _ _ P Th) as [H Rh].
  destruct (rw2_wb_read _ _ _ _ _ _ P Hr Hb) as (Wb & R1 & R2).
  assert (L : zlen (data ++ zeros 16) = zlen data + 16) by (unfold zlen; rewrite app_length; change (length (zeros 16)) with 16%nat; lia).
  pose proof (rf_size _ _ _ _ _ _ _ _ (ph_file _ _ _ _ _ _ _ _ _ _ _ _ Hp)) as Z1. pose proof (rf_file _ _ _ _ _ _ _ _ (ph_file _ _ _ _ _ _ _ _ _ _ _ _ Hp)) as Z2.
  assert (Ld : zlen data + 16 < 2 ^ 32) by (rewrite Z2, !app_length in Z1; unfold zlen; lia).
  destruct (Props_Pred3.C47_panasonic_split_partial pic w h choice byte Hw ltac:(lia) H14 (fun g I => proj1 (Hg g I)) (data ++ zeros 16) B) as (out & D1 & D2 & D3).
  { rewrite L. lia. }
  { lia. }
  { intros g I. rewrite pana_bytes_kept; [apply (Hg g I)|lia|]. intros i Hi. unfold pana_place.
    pose proof (Z.mod_pos_bound ((16 * g + 15 - i) mod 16384 + 8184) 16384 ltac:(lia)). assert (0 <= (16 * g + 15 - i) / 16384) by (apply Z.div_pos; lia).
    assert ((16 * g + 15 - i) / 16384 < (w / 14 * h + 1023) / 1024); [|nia].
    assert ((16 * g + 15 - i) / 16384 < g / 1024 + 1) by (apply Z.div_lt_upper_bound; [lia|]; pose proof (Z.div_mod g 1024 ltac:(lia)); pose proof (Z.mod_pos_bound g 1024 ltac:(lia)); lia).
    assert (g / 1024 + 1 <= (w / 14 * h + 1023) / 1024); [|lia]. rewrite <- Z.div_add by lia. apply Z.div_le_mono; lia. }
  destruct (finished cam o w h (V4 (f32_of r) (flit 256 1) (f32_of b) NAN) out N) as (img & I1 & I2 & I3 & I4 & I5).
  exists img. rewrite I3. split; [|split; [exact I2|split; [exact D2|split; [exact D3|split; [exact I4|]]]]].
  - enter G. unfold rw2_image.
    assert (Hs0 : In T_PanaOffsets (map f_tag fs)) by (eapply number_tag; exact (rf_start _ _ _ _ _ _ _ _ (ph_file _ _ _ _ _ _ _ _ _ _ _ _ Hp))).
    assert (F : find_first_ifd root T_PanaOffsets = Some sub) by (unfold find_first_ifd; rewrite (p_ifds _ _ _ _ P _ Hs0); reflexivity).
    rewrite F, W, H, O2. cbn [bind]. rewrite O3. cbn [bind]. rewrite D1. cbn [bind].
    replace (h =? 0) with false by lia. rewrite C. cbn [bind]. rewrite Wb. exact I1.
  - unfold balance. rewrite I5. cbn [e0 e1 e2 e3]. repeat split; try (apply number_near; assumption); try apply near_256.
Qed.
End Any.
