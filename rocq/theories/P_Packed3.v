(** Packed layouts: 16-bit containers, round trips, shape of every result. *)
From Coq Require Import ZArith List Bool Lia ZifyBool ZifyNat Arith.
From Verif Require Import Base Bytes Threads Lookup Packed Spec_Bits Spec_Image Spec_Packed
  P_Base P_Bits P_Threads P_Pumps P_Packed P_Packed2.
Import ListNotations.
Local Open Scope Z_scope.
Ltac Zify.zify_post_hook ::= Z.div_mod_to_equations.

(** * 16-bit containers *)
Lemma unpacked_line_ok : forall w rd g inb, (forall b, length b = 2%nat -> bytes b -> rd b = Ok (g b)) ->
  forall n a l out, Z.of_nat n = w - a -> 0 <= a -> bytes l -> (2 * n <= length l)%nat ->
  zlen out = w ->
  l = skipn (Z.to_nat (2 * a)) inb ->
  exists out', rfold (fun '(i, bs) o => v <- rd bs ;; upd o i v) (combine (zrange a w) (chunks 2 l)) out = Ok out' /\
    zlen out' = w /\
    forall j, 0 <= j < w -> znth out' j = if a <=? j then g (firstn 2 (skipn (Z.to_nat (2 * j)) inb)) else znth out j.
Proof.
  intros w rd g inb Hrd. induction n as [|n IH]; intros a l out Hn Ha Hb Hl Ho El.
  - rewrite zrange_empty by lia. cbn [combine rfold]. exists out. split; [reflexivity|]. split; [assumption|].
    intros j Hj. destruct (a <=? j) eqn:E; [lia|reflexivity].
  - rewrite zrange_cons by lia. rewrite chunks_cons by (try lia; intros ->; cbn in Hl; lia).
    cbn [combine rfold]. rewrite Hrd by (try (apply Forall_firstn; assumption); rewrite firstn_length; lia).
    cbn [bind]. rewrite upd_ok by lia. cbn [bind].
    destruct (IH (a + 1) (skipn 2 l) (upd_nat out (Z.to_nat a) (g (firstn 2 l)))) as [o' [E1 [E2 E3]]].
    + lia.
    + lia.
    + apply Forall_skipn; assumption.
    + rewrite skipn_length. lia.
    + rewrite zlen_upd_nat. assumption.
    + rewrite El, skipn_skipn'. f_equal. lia.
    + exists o'. split; [exact E1|]. split; [exact E2|]. intros j Hj. rewrite E3 by assumption.
      destruct (a + 1 <=? j) eqn:Ea, (a <=? j) eqn:Eb; try lia; try reflexivity.
      * assert (j = a) by lia. subst j. rewrite znth_upd_nat by lia. rewrite Z.eqb_refl. rewrite El. reflexivity.
      * rewrite znth_upd_nat by lia. destruct (j =? a) eqn:Ec; [lia|reflexivity].
Qed.
Lemma unpacked_image : forall skip rd g, 2 <= skip ->
  (forall b, length b = 2%nat -> bytes b -> rd b = Ok (g b)) ->
  forall buf w h, bytes buf -> 0 < w -> 0 <= h -> skip * w * h <= zlen buf ->
  exists img, unpacked skip rd buf w h = Ok img /\
    is_image img w h (fun r c => g (sub_list buf (r * w * skip + 2 * c) 2)).
Proof.
  intros skip rd g Hs Hrd buf w h Hb Hw Hh Hl. unfold unpacked. apply decode_threaded_image; [assumption..|].
  intros r Hr. assert (Hrw : 0 <= r * w) by (apply Z.mul_nonneg_nonneg; lia).
  assert (Ho : 0 <= r * w * skip) by (apply Z.mul_nonneg_nonneg; lia).
  assert (Hfit : r * w * skip + 2 * w <= zlen buf).
  { assert (H1 : (r + 1) * (w * skip) <= h * (w * skip)) by (apply Z.mul_le_mono_nonneg_r; nia).
    assert (H2 : 2 * w <= skip * w) by (apply Z.mul_le_mono_nonneg_r; lia). lia. }
  rewrite slice_from_ok by lia. cbn [bind]. unfold unpacked_line.
  set (inb := skipn (Z.to_nat (r * w * skip)) buf).
  destruct (unpacked_line_ok w rd g inb Hrd (Z.to_nat w) 0 inb (zeros w)) as [o [E1 [E2 E3]]].
  - lia.
  - lia.
  - apply Forall_skipn; assumption.
  - unfold inb. rewrite skipn_length. unfold zlen in *. lia.
  - rewrite zlen_zeros. lia.
  - reflexivity.
  - exists o. split; [exact E1|]. split; [exact E2|]. intros c Hc. rewrite E3 by assumption.
    destruct (0 <=? c) eqn:E; [|lia]. unfold sub_list, inb. rewrite skipn_skipn'. do 3 f_equal. lia.
Qed.
Lemma le16_rd : forall b, length b = 2%nat -> bytes b -> LEu16 b 0 = Ok (little_endian_value b).
Proof.
  intros b Hl Hb. rewrite LEu16_spec by (try assumption; unfold zlen; lia). unfold sub_list. cbn [Z.to_nat skipn].
  rewrite firstn_all2 by lia. reflexivity.
Qed.
Lemma be16_rd : forall b, length b = 2%nat -> bytes b -> BEu16 b 0 = Ok (big_endian_value b).
Proof.
  intros b Hl Hb. rewrite BEu16_spec by (try assumption; unfold zlen; lia). unfold sub_list. cbn [Z.to_nat skipn].
  rewrite firstn_all2 by lia. reflexivity.
Qed.
Lemma land_mod12 : forall v, Z.land v 0x0fff = v mod 4096.
Proof. intros. apply (land_ones_mod v 12). lia. Qed.
Lemma land_mod14 : forall v, Z.land v 0x3fff = v mod 16384.
Proof. intros. apply (land_ones_mod v 14). lia. Qed.
Lemma shr4 : forall v, Z.shiftr v 4 = v / 16.
Proof. intros. apply Z.shiftr_div_pow2. lia. Qed.

(** * The reference packing is read back *)
Lemma sample_bits_zbits : forall nb v, sample_bits nb v = zbits nb v.
Proof. induction nb; intros; cbn [sample_bits zbits]; [reflexivity|]. rewrite IHnb. reflexivity. Qed.
Lemma sample_bits_length : forall nb v, length (sample_bits nb v) = nb.
Proof. intros. rewrite sample_bits_zbits. apply zbits_length. Qed.
Lemma number_lsb_rev : forall l, number_lsb (rev l) = number l.
Proof.
  induction l as [|b l IH]; [reflexivity|]. cbn [rev]. rewrite number_lsb_app, rev_length, IH. cbn [number_lsb number]. lia.
Qed.
Lemma flat_map_const_length : forall {A B} (f : A -> list B) n l, (forall x, length (f x) = n) ->
  length (flat_map f l) = (n * length l)%nat.
Proof. intros A B f n l H. induction l as [|x l IH]; cbn [flat_map length]; [lia|]. rewrite app_length, H, IH. lia. Qed.
Lemma flat_map_field : forall {A B} (f : A -> list B) n l k d, (forall x, length (f x) = n) -> (k < length l)%nat ->
  firstn n (skipn (n * k) (flat_map f l)) = f (nth k l d).
Proof.
  intros A B f n l k d H. revert l. induction k as [|k IH]; intros l Hk; destruct l as [|x l]; cbn [length] in Hk; try lia; cbn [flat_map nth].
  - rewrite Nat.mul_0_r. cbn [skipn]. rewrite firstn_app, H, Nat.sub_diag. cbn [firstn]. rewrite app_nil_r.
    apply firstn_all2. rewrite H. lia.
  - rewrite Nat.mul_succ_r, Nat.add_comm, <- skipn_skipn'. rewrite skipn_app_exact by (symmetry; apply H).
    apply IH. lia.
Qed.
Lemma bytes_of_bits_inv : forall value bo n f l,
  (forall b, length b = 8%nat -> bo [value b] = b) -> (forall a b, bo (a ++ b) = bo a ++ bo b) -> bo [] = [] ->
  length l = (8 * n)%nat -> (n <= f)%nat -> bo (bytes_of_bits_aux f value l) = l.
Proof.
  intros value bo n f l Hv Ha H0. revert f l. induction n as [|n IH]; intros f l Hl Hf.
  - destruct l; [|cbn in Hl; lia]. destruct f; exact H0.
  - destruct f; [lia|]. cbn [bytes_of_bits_aux]. destruct l as [|x l']; [cbn in Hl; lia|].
    set (l := x :: l') in *.
    change (value (firstn 8 l) :: bytes_of_bits_aux f value (skipn 8 l)) with ([value (firstn 8 l)] ++ bytes_of_bits_aux f value (skipn 8 l)).
    rewrite Ha, Hv by (rewrite firstn_length; lia). rewrite IH by (try lia; rewrite skipn_length; lia).
    apply firstn_skipn.
Qed.
Lemma bits_number8 : forall b, length b = 8%nat -> bits_of [number b] = b.
Proof.
  intros b Hb. unfold bits_of. cbn [flat_map]. rewrite app_nil_r, byte_bits_zbits. rewrite <- Hb. apply zbits_number.
Qed.
Lemma zlsb_number : forall l, zlsb (length l) (number_lsb l) = l.
Proof.
  intros l. apply number_lsb_inj; [rewrite zlsb_length; reflexivity|].
  rewrite number_lsb_zlsb. apply Z.mod_small. apply number_lsb_range.
Qed.
Lemma bits_number_lsb8 : forall b, length b = 8%nat -> bits_of_lsb [number_lsb b] = b.
Proof.
  intros b Hb. unfold bits_of_lsb. cbn [flat_map]. rewrite app_nil_r, byte_bits_lsb_zlsb. rewrite <- Hb. apply zlsb_number.
Qed.
Lemma pack_bits : forall nb img, (exists m, (nb * length img = 8 * m)%nat) ->
  bits_of (pack nb img) = flat_map (sample_bits nb) img.
Proof.
  intros nb img [m Hm]. unfold pack.
  pose proof (flat_map_const_length (sample_bits nb) nb img (sample_bits_length nb)) as L.
  apply (bytes_of_bits_inv number bits_of m); auto using bits_number8, bits_of_app; lia.
Qed.
Lemma sample_bits_lsb_length : forall nb v, length (sample_bits_lsb nb v) = nb.
Proof. intros. unfold sample_bits_lsb. rewrite rev_length. apply sample_bits_length. Qed.
Lemma pack_lsb_bits : forall nb img, (exists m, (nb * length img = 8 * m)%nat) ->
  bits_of_lsb (pack_lsb nb img) = flat_map (sample_bits_lsb nb) img.
Proof.
  intros nb img [m Hm]. unfold pack_lsb.
  pose proof (flat_map_const_length (sample_bits_lsb nb) nb img (sample_bits_lsb_length nb)) as L.
  apply (bytes_of_bits_inv number_lsb bits_of_lsb m); auto using bits_number_lsb8, bits_of_lsb_app; lia.
Qed.
Lemma bytes_of_bits_bytes : forall value f l, (forall b, (length b <= 8)%nat -> byte (value b)) ->
  bytes (bytes_of_bits_aux f value l).
Proof.
  intros value f l Hv. revert l. induction f; intros l; cbn [bytes_of_bits_aux]; [constructor|].
  destruct l; [constructor|]. constructor; [apply Hv; rewrite firstn_length; lia|apply IHf].
Qed.
Lemma pow_le_256 : forall n : nat, (n <= 8)%nat -> 2 ^ Z.of_nat n <= 256.
Proof. intros. change 256 with (2 ^ 8). apply Z.pow_le_mono_r; lia. Qed.
Lemma pack_bytes : forall nb img, bytes (pack nb img).
Proof.
  intros. unfold pack. apply bytes_of_bits_bytes. intros b Hb. unfold byte. pose proof (number_range b).
  pose proof (pow_le_256 _ Hb). lia.
Qed.
Lemma pack_lsb_bytes : forall nb img, bytes (pack_lsb nb img).
Proof.
  intros. unfold pack_lsb. apply bytes_of_bits_bytes. intros b Hb. unfold byte. pose proof (number_lsb_range b).
  pose proof (pow_le_256 _ Hb). lia.
Qed.
Lemma pack_length : forall nb img m, (nb * length img = 8 * m)%nat -> length (pack nb img) = m.
Proof.
  intros nb img m Hm. pose proof (f_equal (@length bool) (pack_bits nb img (ex_intro _ m Hm))) as E.
  rewrite bits_of_length, (flat_map_const_length (sample_bits nb) nb img (sample_bits_length nb)) in E. lia.
Qed.
Lemma pack_lsb_length : forall nb img m, (nb * length img = 8 * m)%nat -> length (pack_lsb nb img) = m.
Proof.
  intros nb img m Hm. pose proof (f_equal (@length bool) (pack_lsb_bits nb img (ex_intro _ m Hm))) as E.
  rewrite bits_of_lsb_length, (flat_map_const_length (sample_bits_lsb nb) nb img (sample_bits_lsb_length nb)) in E. lia.
Qed.
Lemma packed_sample_pack : forall nb img rest k, Forall (fits nb) img -> (exists m, (nb * length img = 8 * m)%nat) ->
  0 <= k < zlen img -> packed_sample nb (pack nb img ++ rest) k = znth img k.
Proof.
  intros nb img rest k Hf Hm Hk. unfold packed_sample, field.
  rewrite bits_of_app, pack_bits by assumption.
  assert (L : length (flat_map (sample_bits nb) img) = (nb * length img)%nat)
    by (apply flat_map_const_length, sample_bits_length).
  unfold zlen in Hk. assert (Hkn : (nb * Z.to_nat k + nb <= nb * length img)%nat).
  { rewrite <- Nat.mul_succ_r. apply Nat.mul_le_mono_l. lia. }
  rewrite skipn_app, firstn_app.
  replace (nb - length (skipn (nb * Z.to_nat k) (flat_map (sample_bits nb) img)))%nat with 0%nat by (rewrite skipn_length; lia).
  cbn [firstn]. rewrite app_nil_r.
  rewrite (flat_map_field (sample_bits nb) nb img _ 0) by (try apply sample_bits_length; lia).
  rewrite sample_bits_zbits, number_zbits. unfold znth. apply Z.mod_small.
  apply (znth_Forall (fits nb)); [assumption|unfold zlen; lia].
Qed.
Lemma packed_sample_lsb_pack : forall nb img rest k, Forall (fits nb) img -> (exists m, (nb * length img = 8 * m)%nat) ->
  0 <= k < zlen img -> packed_sample_lsb nb (pack_lsb nb img ++ rest) k = znth img k.
Proof.
  intros nb img rest k Hf Hm Hk. unfold packed_sample_lsb, field_lsb.
  rewrite bits_of_lsb_app, pack_lsb_bits by assumption.
  assert (L : length (flat_map (sample_bits_lsb nb) img) = (nb * length img)%nat)
    by (apply flat_map_const_length, sample_bits_lsb_length).
  unfold zlen in Hk. assert (Hkn : (nb * Z.to_nat k + nb <= nb * length img)%nat).
  { rewrite <- Nat.mul_succ_r. apply Nat.mul_le_mono_l. lia. }
  rewrite skipn_app, firstn_app.
  replace (nb - length (skipn (nb * Z.to_nat k) (flat_map (sample_bits_lsb nb) img)))%nat with 0%nat by (rewrite skipn_length; lia).
  cbn [firstn]. rewrite app_nil_r.
  rewrite (flat_map_field (sample_bits_lsb nb) nb img _ 0) by (try apply sample_bits_lsb_length; lia).
  unfold sample_bits_lsb. rewrite number_lsb_rev, sample_bits_zbits, number_zbits. unfold znth. apply Z.mod_small.
  apply (znth_Forall (fits nb)); [assumption|unfold zlen; lia].
Qed.

Lemma image_determined : forall img img' w h pix, 0 < w -> 0 <= h -> is_image img' w h pix ->
  zlen img = w * h -> (forall r c, 0 <= r < h -> 0 <= c < w -> pix r c = znth img (r * w + c)) -> img' = img.
Proof.
  intros img img' w h pix Hw Hh [L P] Hl Hp. apply list_eq_znth; [unfold zlen in *; lia|].
  intros k Hk. unfold zlen in Hk.
  assert (Hr : 0 <= k / w < h). { split; [apply Z.div_pos; lia|]. apply Z.div_lt_upper_bound; lia. }
  pose proof (Z.mod_pos_bound k w Hw) as Hc. pose proof (Z.div_mod k w ltac:(lia)) as Ek.
  pose proof (P (k / w) (k mod w) Hr Hc) as E. pose proof (Hp (k / w) (k mod w) Hr Hc) as E'.
  replace (k / w * w + k mod w) with k in * by lia. unfold znth. rewrite E. exact E'.
Qed.

Lemma swapped_swapped : forall k q l, (0 < k)%nat -> length l = (k * q)%nat -> swapped k (swapped k l) = l.
Proof.
  intros k q. induction q as [|q IH]; intros l Hk Hl.
  - rewrite Nat.mul_0_r in Hl. destruct l; [|discriminate]. rewrite !swapped_short by (cbn; lia). reflexivity.
  - rewrite Nat.mul_succ_r in Hl.
    pose proof (swapped_length k q (skipn k l) Hk ltac:(rewrite skipn_length; lia)) as Ls.
    rewrite (swapped_step k l) by lia.
    rewrite swapped_step by (try assumption; rewrite app_length, rev_length, firstn_length_le, Ls; lia).
    assert (Lr : length (rev (firstn k l)) = k) by (rewrite rev_length, firstn_length_le; lia).
    rewrite firstn_app, Lr, Nat.sub_diag. cbn [firstn]. rewrite app_nil_r.
    rewrite firstn_all2 by lia. rewrite rev_involutive.
    rewrite skipn_app_exact by (symmetry; exact Lr).
    rewrite IH by (try assumption; rewrite skipn_length; lia). apply firstn_skipn.
Qed.
Lemma swapped_bytes : forall k n l, (0 < k)%nat -> (length l <= n)%nat -> bytes l -> bytes (swapped k l).
Proof.
  intros k n. induction n as [|n IH]; intros l Hk Hl Hb.
  - destruct l; [|cbn in Hl; lia]. rewrite swapped_short by (cbn; lia). constructor.
  - destruct (Nat.lt_ge_cases (length l) k); [rewrite swapped_short by assumption; constructor|].
    rewrite swapped_step by assumption. apply Forall_app. split; [apply Forall_rev, Forall_firstn; assumption|].
    apply IH; [assumption|rewrite skipn_length; lia|apply Forall_skipn; assumption].
Qed.

(** * Round trips *)
Lemma mult_even : forall (img : list Z) w h, zlen img = w * h -> w mod 2 = 0 -> exists m, (12 * length img = 8 * m)%nat.
Proof.
  intros img w h Hl He. exists (3 * (length img / 2))%nat. unfold zlen in Hl.
  assert (Z.of_nat (length img) mod 2 = 0); [|lia].
  rewrite Hl. rewrite Z.mul_mod, He by lia. rewrite Z.mul_0_l. reflexivity.
Qed.
Theorem round_trip_12be : forall img w h, 0 < w -> w mod 2 = 0 -> 0 <= h -> zlen img = w * h -> Forall (fits 12) img ->
  forall rest, bytes rest -> decode_12be (pack 12 img ++ rest) w h = Ok img.
Proof.
  intros img w h Hw He Hh Hl Hf rest Hr. destruct (mult_even img w h Hl He) as [m Hm].
  pose proof (pack_length 12 img m Hm) as L.
  destruct (decode_12be_image (pack 12 img ++ rest) w h) as [img' [E I]]; auto.
  - apply Forall_app; split; [apply pack_bytes|assumption].
  - rewrite zlen_app. unfold zlen in *. lia.
  - rewrite E. f_equal. apply (image_determined img img' w h _ Hw Hh I Hl). intros r c H1 H2. cbv beta.
    apply packed_sample_pack; eauto. nia.
Qed.
Theorem round_trip_12le : forall img w h, 0 < w -> w mod 2 = 0 -> 0 <= h -> zlen img = w * h -> Forall (fits 12) img ->
  forall rest, bytes rest -> decode_12le (pack_lsb 12 img ++ rest) w h = Ok img.
Proof.
  intros img w h Hw He Hh Hl Hf rest Hr. destruct (mult_even img w h Hl He) as [m Hm].
  pose proof (pack_lsb_length 12 img m Hm) as L.
  destruct (decode_12le_image (pack_lsb 12 img ++ rest) w h) as [img' [E I]]; auto.
  - apply Forall_app; split; [apply pack_lsb_bytes|assumption].
  - rewrite zlen_app. unfold zlen in *. lia.
  - rewrite E. f_equal. apply (image_determined img img' w h _ Hw Hh I Hl). intros r c H1 H2. cbv beta.
    apply packed_sample_lsb_pack; eauto. nia.
Qed.
Theorem round_trip_12be_msb16 : forall img w h, 0 < w -> 0 <= h -> (w * h) mod 4 = 0 -> zlen img = w * h -> Forall (fits 12) img ->
  decode_12be_msb16 (swapped 2 (pack 12 img)) w h = Ok img.
Proof.
  intros img w h Hw Hh He Hl Hf.
  assert (exists m, length img = (4 * m)%nat) as [m Em] by (exists (length img / 4)%nat; unfold zlen in *; lia).
  assert (Hm : (12 * length img = 8 * (2 * (3 * m)))%nat) by lia.
  pose proof (pack_length 12 img _ Hm) as L.
  pose proof (swapped_length 2 _ (pack 12 img) ltac:(lia) L) as L2.
  destruct (decode_12be_msb16_image (swapped 2 (pack 12 img)) w h) as [img' [E I]]; auto.
  - eapply swapped_bytes; [lia|apply Nat.le_refl|apply pack_bytes].
  - unfold zlen in *. lia.
  - rewrite E. f_equal. apply (image_determined img img' w h _ Hw Hh I Hl). intros r c H1 H2. cbv beta.
    rewrite (swapped_swapped 2 (3 * m)) by (try lia; exact L).
    rewrite <- (app_nil_r (pack 12 img)). apply packed_sample_pack; eauto. nia.
Qed.
Theorem round_trip_12be_msb32 : forall img w h, 0 < w -> 0 <= h -> (w * h) mod 8 = 0 -> zlen img = w * h -> Forall (fits 12) img ->
  decode_12be_msb32 (swapped 4 (pack 12 img)) w h = Ok img.
Proof.
  intros img w h Hw Hh He Hl Hf.
  assert (exists m, length img = (8 * m)%nat) as [m Em] by (exists (length img / 8)%nat; unfold zlen in *; lia).
  assert (Hm : (12 * length img = 8 * (4 * (3 * m)))%nat) by lia.
  pose proof (pack_length 12 img _ Hm) as L.
  pose proof (swapped_length 4 _ (pack 12 img) ltac:(lia) L) as L2.
  destruct (decode_12be_msb32_image (swapped 4 (pack 12 img)) w h) as [img' [E I]]; auto.
  - eapply swapped_bytes; [lia|apply Nat.le_refl|apply pack_bytes].
  - unfold zlen in *. lia.
  - rewrite E. f_equal. apply (image_determined img img' w h _ Hw Hh I Hl). intros r c H1 H2. cbv beta.
    rewrite (swapped_swapped 4 (3 * m)) by (try lia; exact L).
    rewrite <- (app_nil_r (pack 12 img)). apply packed_sample_pack; eauto. nia.
Qed.
Theorem round_trip_10le_lsb16 : forall img w h, 0 < w -> 0 <= h -> w mod 8 = 0 -> zlen img = w * h -> Forall (fits 10) img ->
  decode_10le_lsb16 (swapped 2 (pack 10 img)) w h = Ok img.
Proof.
  intros img w h Hw Hh He Hl Hf.
  assert (exists m, length img = (8 * m)%nat) as [m Em].
  { exists (Z.to_nat (w / 8 * h)). unfold zlen in *. assert (w = 8 * (w / 8)) by lia. set (a := w / 8) in *. nia. }
  assert (Hm : (10 * length img = 8 * (2 * (5 * m)))%nat) by lia.
  pose proof (pack_length 10 img _ Hm) as L.
  pose proof (swapped_length 2 _ (pack 10 img) ltac:(lia) L) as L2.
  destruct (decode_10le_lsb16_image (swapped 2 (pack 10 img)) w h) as [img' [E I]]; auto.
  - eapply swapped_bytes; [lia|apply Nat.le_refl|apply pack_bytes].
  - unfold zlen in *. lia.
  - rewrite E. f_equal. apply (image_determined img img' w h _ Hw Hh I Hl). intros r c H1 H2. cbv beta.
    rewrite (swapped_swapped 2 (5 * m)) by (try lia; exact L).
    rewrite <- (app_nil_r (pack 10 img)). apply packed_sample_pack; eauto. nia.
Qed.

Lemma pack16_field : forall big img rest k, 0 <= k < zlen img ->
  sub_list (pack16 big img ++ rest) (2 * k) 2 = (let v := znth img k in if big then [v / 256; v mod 256] else [v mod 256; v / 256]).
Proof.
  intros big img rest k Hk. unfold sub_list, pack16.
  set (f := fun v : Z => if big then [v / 256; v mod 256] else [v mod 256; v / 256]).
  assert (Lf : forall v, length (f v) = 2%nat) by (intros; unfold f; destruct big; reflexivity).
  pose proof (flat_map_const_length f 2 img Lf) as L. unfold zlen in Hk.
  replace (Z.to_nat (2 * k)) with (2 * Z.to_nat k)%nat by lia.
  rewrite skipn_app, firstn_app. rewrite skipn_length, L.
  replace (2 - (2 * length img - 2 * Z.to_nat k))%nat with 0%nat by lia. rewrite firstn_O, app_nil_r.
  rewrite (flat_map_field f 2 img _ 0 Lf) by lia. reflexivity.
Qed.
Lemma pack16_bytes : forall big img, Forall (fits 16) img -> bytes (pack16 big img).
Proof.
  intros big img H. induction H as [|v l Hv Hl IH]; [constructor|]. unfold fits in Hv. change (2 ^ Z.of_nat 16) with 65536 in Hv.
  unfold pack16 in *. cbn [flat_map]. apply Forall_app. split; [|exact IH].
  unfold byte. destruct big; (constructor; [lia|]; constructor; [lia|constructor]).
Qed.
Lemma pack16_zlen : forall big img, zlen (pack16 big img) = 2 * zlen img.
Proof.
  intros. unfold zlen, pack16. rewrite (flat_map_const_length _ 2) by (destruct big; reflexivity). lia.
Qed.
(** The stored 16-bit word of each sample. *)
Lemma round_trip_unpacked : forall big rd g f, 
  (forall b, length b = 2%nat -> bytes b -> rd b = Ok (g (if big : bool then big_endian_value b else little_endian_value b))) ->
  forall img w h, 0 < w -> 0 <= h -> zlen img = w * h ->
  Forall (fun v => g (f v) = v /\ fits 16 (f v)) img -> forall rest, bytes rest ->
  unpacked 2 rd (pack16 big (map f img) ++ rest) w h = Ok img.
Proof.
  intros big rd g f Hrd img w h Hw Hh Hl Hf rest Hr.
  destruct (unpacked_image 2 rd (fun b => g (if big then big_endian_value b else little_endian_value b)) ltac:(lia) Hrd
    (pack16 big (map f img) ++ rest) w h) as [img' [E I]]; auto.
  - apply Forall_app. split; [|assumption]. apply pack16_bytes. rewrite Forall_map.
    eapply Forall_impl; [|exact Hf]. cbn. tauto.
  - rewrite zlen_app, pack16_zlen, zlen_map. pose proof (zlen_nonneg rest). lia.
  - rewrite E. f_equal. apply (image_determined img img' w h _ Hw Hh I Hl). intros r c H1 H2. cbv beta.
    assert (Hk : 0 <= r * w + c < zlen img) by nia.
    replace (r * w * 2 + 2 * c) with (2 * (r * w + c)) by lia. set (k := r * w + c) in *.
    rewrite pack16_field by (rewrite zlen_map; assumption). cbv zeta.
    assert (Ef : znth (map f img) k = f (znth img k)).
    { unfold znth. rewrite (nth_indep _ 0 (f 0)) by (rewrite map_length; unfold zlen in Hk; lia). apply map_nth. }
    rewrite Ef. pose proof (znth_Forall _ img k Hf Hk) as [Hg Hfit]. unfold fits in Hfit. change (2 ^ Z.of_nat 16) with 65536 in Hfit.
    set (v := f (znth img k)) in *.
    replace (if big then big_endian_value _ else _) with v; [exact Hg|].
    destruct big; cbn [big_endian_value little_endian_value length]; change (256 ^ Z.of_nat 1) with 256; change (256 ^ Z.of_nat 0) with 1; lia.
Qed.
