(** Packed layouts: remaining lemmas behind the property theorems. *)
From Coq Require Import ZArith List Bool Lia ZifyBool ZifyNat Arith.
From Verif Require Import Base Bytes Threads Lookup Packed Spec_Bits Spec_Image Spec_Packed Spec_Curve
  P_Base P_Bits P_Threads P_Pumps P_Packed P_Packed2 P_Packed3 P_Packed4 P_Lookup.
Import ListNotations.
Local Open Scope Z_scope.
Ltac Zify.zify_post_hook ::= Z.div_mod_to_equations.

Ltac unp g := intros buf w h Hb Hw Hh Hl;
  apply (unpacked_image _ _ g); try assumption; try lia;
  intros b Hlb Hbb; rewrite ?le16_rd, ?be16_rd by assumption; cbn [bind];
  rewrite ?land_mod12, ?land_mod14, ?shr4; reflexivity.
Lemma unpacked12le_image : forall buf w h, bytes buf -> 0 < w -> 0 <= h -> 2 * w * h <= zlen buf ->
  exists img, decode_12le_unpacked buf w h = Ok img /\ is_image img w h (fun r c => little_endian_value (sub_list buf (r * w * 2 + 2 * c) 2) mod 4096).
Proof. unp (fun b => little_endian_value b mod 4096). Qed.
Lemma unpacked12be_image : forall buf w h, bytes buf -> 0 < w -> 0 <= h -> 2 * w * h <= zlen buf ->
  exists img, decode_12be_unpacked buf w h = Ok img /\ is_image img w h (fun r c => big_endian_value (sub_list buf (r * w * 2 + 2 * c) 2) mod 4096).
Proof. unp (fun b => big_endian_value b mod 4096). Qed.
Lemma unpacked12bel_image : forall buf w h, bytes buf -> 0 < w -> 0 <= h -> 2 * w * h <= zlen buf ->
  exists img, decode_12be_unpacked_left_aligned buf w h = Ok img /\ is_image img w h (fun r c => big_endian_value (sub_list buf (r * w * 2 + 2 * c) 2) / 16).
Proof. unp (fun b => big_endian_value b / 16). Qed.
Lemma unpacked12lel_image : forall buf w h, bytes buf -> 0 < w -> 0 <= h -> 2 * w * h <= zlen buf ->
  exists img, decode_12le_unpacked_left_aligned buf w h = Ok img /\ is_image img w h (fun r c => little_endian_value (sub_list buf (r * w * 2 + 2 * c) 2) / 16).
Proof. unp (fun b => little_endian_value b / 16). Qed.
Lemma unpacked14le_image : forall buf w h, bytes buf -> 0 < w -> 0 <= h -> 2 * w * h <= zlen buf ->
  exists img, decode_14le_unpacked buf w h = Ok img /\ is_image img w h (fun r c => little_endian_value (sub_list buf (r * w * 2 + 2 * c) 2) mod 16384).
Proof. unp (fun b => little_endian_value b mod 16384). Qed.
Lemma unpacked14be_image : forall buf w h, bytes buf -> 0 < w -> 0 <= h -> 2 * w * h <= zlen buf ->
  exists img, decode_14be_unpacked buf w h = Ok img /\ is_image img w h (fun r c => big_endian_value (sub_list buf (r * w * 2 + 2 * c) 2) mod 16384).
Proof. unp (fun b => big_endian_value b mod 16384). Qed.
Lemma unpacked16le_image : forall buf w h, bytes buf -> 0 < w -> 0 <= h -> 2 * w * h <= zlen buf ->
  exists img, decode_16le buf w h = Ok img /\ is_image img w h (fun r c => little_endian_value (sub_list buf (r * w * 2 + 2 * c) 2)).
Proof. unp little_endian_value. Qed.
Lemma unpacked16be_image : forall buf w h, bytes buf -> 0 < w -> 0 <= h -> 2 * w * h <= zlen buf ->
  exists img, decode_16be buf w h = Ok img /\ is_image img w h (fun r c => big_endian_value (sub_list buf (r * w * 2 + 2 * c) 2)).
Proof. unp big_endian_value. Qed.
Lemma unpacked16les_image : forall buf w h, bytes buf -> 0 < w -> 0 <= h -> 4 * w * h <= zlen buf ->
  exists img, decode_16le_skiplines buf w h = Ok img /\ is_image img w h (fun r c => little_endian_value (sub_list buf (r * w * 4 + 2 * c) 2)).
Proof. unp little_endian_value. Qed.

Lemma fits_impl : forall n (f g : Z -> Z) img, (forall v, fits n v -> g (f v) = v /\ fits 16 (f v)) -> Forall (fits n) img ->
  Forall (fun v => g (f v) = v /\ fits 16 (f v)) img.
Proof. intros n f g img H. apply Forall_impl. exact H. Qed.
Ltac p2n := unfold fits; change (2 ^ Z.of_nat 12) with 4096; change (2 ^ Z.of_nat 14) with 16384; change (2 ^ Z.of_nat 16) with 65536.
Ltac rt big g f n := intros img w h Hw Hh Hl Hf rest Hr;
  try (replace (pack16 big img) with (pack16 big (map f img)) by (rewrite map_id; reflexivity));
  apply (round_trip_unpacked big _ g f); try assumption;
  [intros b Hlb Hbb; rewrite ?le16_rd, ?be16_rd by assumption; cbn [bind]; rewrite ?land_mod12, ?land_mod14, ?shr4; reflexivity
  |apply (fits_impl n f g); [p2n; intros; lia|assumption]].
Lemma rt_16le : forall img w h, 0 < w -> 0 <= h -> zlen img = w * h -> Forall (fits 16) img ->
  forall rest, bytes rest -> decode_16le (pack16 false img ++ rest) w h = Ok img.
Proof. rt false (fun v : Z => v) (fun v : Z => v) 16%nat. Qed.
Lemma rt_16be : forall img w h, 0 < w -> 0 <= h -> zlen img = w * h -> Forall (fits 16) img ->
  forall rest, bytes rest -> decode_16be (pack16 true img ++ rest) w h = Ok img.
Proof. rt true (fun v : Z => v) (fun v : Z => v) 16%nat. Qed.
Lemma rt_12le_in_16 : forall img w h, 0 < w -> 0 <= h -> zlen img = w * h -> Forall (fits 12) img ->
  forall rest, bytes rest -> decode_12le_unpacked (pack16 false img ++ rest) w h = Ok img.
Proof. rt false (fun v : Z => v mod 4096) (fun v : Z => v) 12%nat. Qed.
Lemma rt_12be_in_16 : forall img w h, 0 < w -> 0 <= h -> zlen img = w * h -> Forall (fits 12) img ->
  forall rest, bytes rest -> decode_12be_unpacked (pack16 true img ++ rest) w h = Ok img.
Proof. rt true (fun v : Z => v mod 4096) (fun v : Z => v) 12%nat. Qed.
Lemma rt_14le_in_16 : forall img w h, 0 < w -> 0 <= h -> zlen img = w * h -> Forall (fits 14) img ->
  forall rest, bytes rest -> decode_14le_unpacked (pack16 false img ++ rest) w h = Ok img.
Proof. rt false (fun v : Z => v mod 16384) (fun v : Z => v) 14%nat. Qed.
Lemma rt_14be_in_16 : forall img w h, 0 < w -> 0 <= h -> zlen img = w * h -> Forall (fits 14) img ->
  forall rest, bytes rest -> decode_14be_unpacked (pack16 true img ++ rest) w h = Ok img.
Proof. rt true (fun v : Z => v mod 16384) (fun v : Z => v) 14%nat. Qed.
Lemma rt_12le_left_in_16 : forall img w h, 0 < w -> 0 <= h -> zlen img = w * h -> Forall (fits 12) img ->
  forall rest, bytes rest -> decode_12le_unpacked_left_aligned (pack16 false (map (fun v => 16 * v) img) ++ rest) w h = Ok img.
Proof. rt false (fun v : Z => v / 16) (fun v : Z => 16 * v) 12%nat. Qed.
Lemma rt_12be_left_in_16 : forall img w h, 0 < w -> 0 <= h -> zlen img = w * h -> Forall (fits 12) img ->
  forall rest, bytes rest -> decode_12be_unpacked_left_aligned (pack16 true (map (fun v => 16 * v) img) ++ rest) w h = Ok img.
Proof. rt true (fun v : Z => v / 16) (fun v : Z => 16 * v) 12%nat. Qed.

Lemma round_trip_12be_wcontrol : forall rows w c, 0 < w -> w mod 2 = 0 -> byte c ->
  Forall (fun row => zlen row = w) rows -> Forall (Forall (fits 12)) rows ->
  decode_12be_wcontrol (pack_rows (w * 12 / 8 + (w + 2) / 10) c (fun row => with_control c (pack 12 row)) rows)
    w (Z.of_nat (length rows)) = Ok (concat rows).
Proof.
  apply (round_trip_control decode_12be_wcontrol (pack 12) (packed_sample 12)).
  - exact decode_12be_wcontrol_image.
  - apply pack_bytes.
  - apply pack_length.
  - intros. apply packed_sample_pack; assumption.
Qed.
Lemma round_trip_12le_wcontrol : forall rows w c, 0 < w -> w mod 2 = 0 -> byte c ->
  Forall (fun row => zlen row = w) rows -> Forall (Forall (fits 12)) rows ->
  decode_12le_wcontrol (pack_rows (w * 12 / 8 + (w + 2) / 10) c (fun row => with_control c (pack_lsb 12 row)) rows)
    w (Z.of_nat (length rows)) = Ok (concat rows).
Proof.
  apply (round_trip_control decode_12le_wcontrol (pack_lsb 12) (packed_sample_lsb 12)).
  - exact decode_12le_wcontrol_image.
  - apply pack_lsb_bytes.
  - apply pack_lsb_length.
  - intros. apply packed_sample_lsb_pack; assumption.
Qed.

(** The wrong 10-bit layout. *)
Lemma decode_10le_wrong : exists buf img, bytes buf /\ 4 * 1 * 10 <= 8 * Z.of_nat (length buf) /\
  decode_10le buf 4 1 = Ok img /\ nth 2 img 0 <> packed_sample 10 buf 2.
Proof.
  exists [0; 0; 0; 255; 0], [0; 0; 0; 768]. split; [repeat constructor; discriminate|]. split; [discriminate|].
  split; [reflexivity|]. vm_compute. discriminate.
Qed.
(** What the code computes: the fields of the group with byte 2 in the place of
    byte 3 for the third sample. *)
Definition fields_10le (bs : list Z) : list Z :=
  let f := fields number 10 4 (bits_of bs) in
  [nth 0 f 0; nth 1 f 0; ((nth 2 bs 0 &&& 0x0f) <<< 6) ||| (nth 2 bs 0 >>> 2); nth 3 f 0].
Lemma body_10le_value : forall o i, length o = 4%nat -> length i = 5%nat -> bytes i ->
  body_10le o i = Ok (fields_10le i).
Proof.
  intros o i Ho Hi Hb.
  destruct (list_length_S o 3 Ho) as [o1 [o' [-> Ho1]]]. destruct (list_length_S o' 2 Ho1) as [o2 [o'' [-> Ho2]]].
  destruct (list_length_S o'' 1 Ho2) as [o3 [o3' [-> Ho3]]]. destruct (list_length_S o3' 0 Ho3) as [o4 [o4' [-> Ho4]]].
  destruct o4'; [|discriminate].
  destruct (list_length_S i 4 Hi) as [g1 [i1 [-> Hi1]]]. destruct (list_length_S i1 3 Hi1) as [g2 [i2 [-> Hi2]]].
  destruct (list_length_S i2 2 Hi2) as [g3 [i3 [-> Hi3]]]. destruct (list_length_S i3 1 Hi3) as [g4 [i4 [-> Hi4]]].
  destruct (list_length_S i4 0 Hi4) as [g5 [i5 [-> Hi5]]]. destruct i5; [|discriminate].
  inversion Hb as [|? ? B1 Hb1]; subst. inversion Hb1 as [|? ? B2 Hb2]; subst. inversion Hb2 as [|? ? B3 Hb3]; subst.
  inversion Hb3 as [|? ? B4 Hb4]; subst. inversion Hb4 as [|? ? B5 Hb5]; subst.
  cbv -[Z.lor Z.land Z.shiftl Z.shiftr fields_10le].
  unfold fields_10le. cbn [nth]. f_equal.
  set (bs := bits_of [g1; g2; g3; g4; g5]).
  change (fields number 10 4 bs) with [number (firstn 10 bs); number (firstn 10 (skipn 10 bs)); number (firstn 10 (skipn 20 bs)); number (firstn 10 (skipn 30 bs))].
  cbn [nth].
  assert (E1 : (g1 <<< 2) ||| (g2 >>> 6) = number (firstn 10 bs)) by exact (join_bits_full g1 g2 2 B1 B2 ltac:(lia)).
  assert (E2 : ((g2 &&& 63) <<< 4) ||| (g3 >>> 4) = number (firstn 10 (skipn 10 bs))) by exact (join_bits g2 g3 6 4 B2 B3 ltac:(lia) ltac:(lia)).
  assert (E4 : ((g4 &&& 3) <<< 8) ||| g5 = number (firstn 10 (skipn 30 bs))) by exact (join_bits_all g4 g5 2 B4 B5 ltac:(lia)).
  rewrite <- E1, <- E2, <- E4. reflexivity.
Qed.
Lemma zip_chunks_groups : forall no ni body (G : list Z -> list Z), (0 < no)%nat -> (0 < ni)%nat ->
  (forall o i, length o = no -> length i = ni -> bytes i -> body o i = Ok (G i) /\ length (G i) = no) ->
  forall m out inb, length out = (no * m)%nat -> (ni * m <= length inb)%nat -> bytes inb ->
  exists r, zip_chunks no ni body out inb = Ok r /\ length r = (no * m)%nat /\
    forall k j, (k < m)%nat -> (j < no)%nat -> nth (no * k + j) r 0 = nth j (G (firstn ni (skipn (ni * k) inb))) 0.
Proof.
  intros no ni body G Hno Hni HG. induction m as [|m IH]; intros out inb Ho Hi Hb.
  - exists []. rewrite Nat.mul_0_r in *. destruct out; [|discriminate]. split; [reflexivity|]. split; [reflexivity|]. intros; lia.
  - rewrite Nat.mul_succ_r in *.
    rewrite zip_chunks_cons by (try assumption; intros ->; cbn in Ho, Hi; lia).
    destruct (HG (firstn no out) (firstn ni inb)) as [E L]; [rewrite firstn_length_le; lia|rewrite firstn_length_le; lia|apply Forall_firstn; assumption|].
    rewrite E. cbn [bind].
    destruct (IH (skipn no out) (skipn ni inb)) as [r [E1 [L1 P1]]]; [rewrite skipn_length; lia|rewrite skipn_length; lia|apply Forall_skipn; assumption|].
    rewrite E1. cbn [bind]. eexists. split; [reflexivity|]. split; [rewrite app_length; lia|].
    intros k j Hk Hj. destruct k as [|k].
    + rewrite !Nat.mul_0_r. cbn [skipn Nat.add]. apply app_nth1. lia.
    + rewrite !Nat.mul_succ_r. rewrite app_nth2 by lia. replace (no * k + no + j - length (G (firstn ni inb)))%nat with (no * k + j)%nat by lia.
      rewrite P1 by lia. rewrite skipn_skipn'. do 4 f_equal. lia.
Qed.
Lemma decode_10le_partial : forall buf w h, bytes buf -> 0 < w -> w mod 4 = 0 -> 0 <= h ->
  w * h * 10 <= 8 * Z.of_nat (length buf) ->
  exists img, decode_10le buf w h = Ok img /\ Z.of_nat (length img) = w * h /\
    forall r c, 0 <= r < h -> 0 <= c < w -> c mod 4 <> 2 ->
      nth (Z.to_nat (r * w + c)) img 0 = packed_sample 10 buf (r * w + c).
Proof.
  intros buf w h Hb Hw He Hh Hl. unfold decode_10le.
  assert (exists a, w = 4 * a) as [a Ea] by (exists (w / 4); lia).
  assert (Eo : forall r, r * w * 10 / 8 = 5 * (r * a)).
  { intros r. rewrite Ea. replace (r * (4 * a) * 10) with (5 * (r * a) * 8) by lia. apply Z.div_mul. lia. }
  set (pix := fun r c => nth (Z.to_nat (c mod 4)) (fields_10le (firstn 5 (skipn (Z.to_nat (5 * (r * a + c / 4))) buf))) 0).
  destruct (decode_threaded_image w h (fun out row => inb <- slice_from buf (row * w * 10 / 8) ;; zip_chunks 4 5 body_10le out inb) pix Hw Hh)
    as [img [E [L I]]].
  - intros r Hr. rewrite Eo. assert (Hra : 0 <= r * a) by (apply Z.mul_nonneg_nonneg; lia).
    assert (Hfit : 5 * (r * a) + 5 * a <= zlen buf) by (unfold zlen; nia).
    rewrite slice_from_ok by lia. cbn [bind].
    destruct (zip_chunks_groups 4 5 body_10le fields_10le ltac:(lia) ltac:(lia)
      (fun o i Ho Hi Hb => conj (body_10le_value o i Ho Hi Hb) eq_refl) (Z.to_nat a) (zeros w) (skipn (Z.to_nat (5 * (r * a))) buf))
      as [line [E1 [L1 P1]]].
    + rewrite zeros_length. lia.
    + rewrite skipn_length. unfold zlen in *. lia.
    + apply Forall_skipn; assumption.
    + exists line. split; [exact E1|]. split; [unfold zlen; lia|]. intros c Hc. unfold pix, znth.
      replace (Z.to_nat c) with (4 * Z.to_nat (c / 4) + Z.to_nat (c mod 4))%nat by lia.
      rewrite P1 by lia. rewrite skipn_skipn'. do 4 f_equal. lia.
  - exists img. split; [exact E|]. split; [exact L|]. intros r c Hr Hc Hn. rewrite I by assumption. unfold pix.
    set (g := firstn 5 (skipn (Z.to_nat (5 * (r * a + c / 4))) buf)).
    assert (Hra : 0 <= r * a) by (apply Z.mul_nonneg_nonneg; lia).
    assert (F : nth (Z.to_nat (c mod 4)) (fields number 10 4 (bits_of g)) 0 = packed_sample 10 buf (r * w + c)).
    { rewrite fields_nth by lia. unfold packed_sample, field. f_equal. unfold g.
      rewrite bits_of_firstn, bits_of_skipn. rewrite skipn_firstn_comm, firstn_firstn, skipn_skipn'.
      rewrite Nat.min_l by lia. f_equal. f_equal.
      replace (r * w + c) with (4 * (r * a + c / 4) + c mod 4) by (rewrite Ea at 1; lia).
      set (q := r * a + c / 4) in *. assert (0 <= q) by (unfold q; lia). lia. }
    rewrite <- F. unfold fields_10le. assert (Hc4 : c mod 4 = 0 \/ c mod 4 = 1 \/ c mod 4 = 3) by lia.
    destruct Hc4 as [-> | [-> | ->]]; reflexivity.
Qed.

(** 8-bit layout *)
Lemma decode_8bit_shape : forall {M : Mode} tbl buf w h img, 0 <= w -> 0 <= h -> decode_8bit_wtable buf tbl w h = Ok img ->
  Z.of_nat (length img) = w * h /\ samples img.
Proof.
  intros M tbl buf w h img Hw Hh H. apply (decode_threaded_shape w h _ img sample H Hw Hh).
  intros r l Hr E. cbv beta in E. apply bind_inv in E. destruct E as [inb [E1 E]]. apply bind_inv in E. destruct E as [rnd [E2 E]].
  apply dither_line_keeps in E; [|apply zeros_P; unfold sample; lia]. rewrite zlen_zeros in E. replace (Z.max 0 w) with w in E by lia.
  exact E.
Qed.

(** Missing data *)
Lemma decode_12be_needs : forall buf w h img, 0 < w -> 0 < h -> decode_12be buf w h = Ok img ->
  (h - 1) * w * 12 / 8 <= Z.of_nat (length buf).
Proof.
  intros buf w h img Hw Hh H. destruct (decode_threaded_inv w h _ img H ltac:(lia) ltac:(lia)) as [_ [ls [F _]]].
  assert (Hin : In (h - 1) (zrange 0 h)) by (apply zrange_In; lia).
  clear H. induction F as [|r l rs ls E F IH]; [destruct Hin|].
  destruct Hin as [->|Hin]; [|apply IH; assumption].
  cbv beta in E. apply bind_inv in E. destruct E as [inb [E1 _]]. apply slice_from_inv in E1. unfold zlen in E1. lia.
Qed.
Lemma decode_12be_truncated : exists buf w h img, bytes buf /\ Z.of_nat (length buf) * 8 < w * h * 12 /\
  decode_12be buf w h = Ok img.
Proof.
  exists [1; 2; 3], 2, 2, [16; 515; 0; 0]. split; [repeat constructor; discriminate|]. split; [reflexivity|]. reflexivity.
Qed.
Lemma decode_msb_truncated : forall w h, 0 < w -> 0 < h ->
  decode_12be_msb16 [] w h = Ok (zeros (w * h)) /\ decode_12be_msb32 [] w h = Ok (zeros (w * h)).
Proof.
  intros w h Hw Hh. unfold decode_12be_msb16, decode_12be_msb32. split; apply zip_chunks_nil_r.
Qed.
