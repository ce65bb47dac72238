(** Whole Canon files of small pictures (C57). *)
From Coq Require Import String Ascii ZArith List Bool Reals Lia ZifyBool ZifyNat.
From Flocq Require Import Core BinarySingleNaN.
From Verif Require Import Base Num F32 Bytes Pumps Packed Huffman Ljpeg Cr2 Tiff Transform Image Camera Clients Decoder Dec_Ljpeg Dispatch.
From Verif Require Import Spec_Bits Spec_Image Spec_Stream Spec_Huffman Spec_Ljpeg Spec_Sensor Spec_Tiff Spec_Camera Spec_Known Spec_Meta Spec_File Spec_Dng Spec_Canon.
From Verif Require Import P_Base P_Bits P_F32 P_Tiff3 P_Tiff5 P_Ljpeg12 P_Ljpeg13 P_Sensor4 P_Black P_Meta1 P_Meta2 P_File1 P_File2 P_Dng2 P_Canon.
From Verif Require Props_Sensor Props_Meta.
Import ListNotations.
Local Open Scope Z_scope.

(** ** Pixels *)
Definition pixel_of (l : list Z) (i : nat) : Z * Z * Z := (nth (3 * i) l 0, nth (3 * i + 1) l 0, nth (3 * i + 2) l 0).
Definition pixels_of (l : list Z) (n : nat) : list (Z * Z * Z) := map (pixel_of l) (seq 0 n).
Lemma seq_up : forall n, seq 0 (S n) = seq 0 n ++ [n].
Proof. intros n. replace (S n) with (n + 1)%nat by lia. rewrite seq_app. reflexivity. Qed.
Lemma triples_length : forall (f : Z * Z * Z -> list Z) l n, (forall x, length (f x) = 3%nat) -> length (flat_map f (pixels_of l n)) = (3 * n)%nat.
Proof.
  intros f l n Hf. unfold pixels_of. induction n as [|n IH]; [reflexivity|]. rewrite seq_up, map_app, flat_map_app, app_length, IH. cbn [map flat_map]. rewrite app_nil_r, Hf. lia.
Qed.
Lemma triples_nth : forall (f : Z * Z * Z -> list Z) l n i j, (forall x, length (f x) = 3%nat) -> (i < n)%nat -> (j < 3)%nat ->
  nth (3 * i + j) (flat_map f (pixels_of l n)) 0 = nth j (f (pixel_of l i)) 0.
Proof.
  intros f l n i j Hf Hi Hj. induction n as [|n IH]; [lia|].
  pose proof (triples_length f l n Hf) as L. unfold pixels_of in *. rewrite seq_up, map_app, flat_map_app.
  destruct (Nat.eq_dec i n) as [->|Hne].
  - rewrite app_nth2 by lia. rewrite L. cbn [map flat_map]. rewrite app_nil_r. f_equal. lia.
  - rewrite app_nth1 by lia. apply IH. lia.
Qed.
Lemma pixels_all : forall l n, length l = (3 * n)%nat -> flat_map parts (pixels_of l n) = l.
Proof.
  intros l n Hl. assert (Lp : forall x, length (parts x) = 3%nat) by (intros [[a b] c]; reflexivity).
  apply nth_ext with (d := 0) (d' := 0).
  - rewrite (triples_length parts l n Lp). lia.
  - intros k Hk. rewrite (triples_length parts l n Lp) in Hk. pose proof (Nat.div_mod k 3 ltac:(lia)) as Q. pose proof (Nat.mod_upper_bound k 3 ltac:(lia)) as Q2.
    rewrite Q at 1. rewrite (triples_nth parts l n (k / 3) (k mod 3) Lp) by lia. unfold pixel_of, parts.
    assert (k mod 3 = 0 \/ k mod 3 = 1 \/ k mod 3 = 2)%nat as [E|[E|E]] by lia; rewrite E in *; cbn [nth]; f_equal; lia.
Qed.
Lemma rgb_length : forall wr wg wb yo x, length (canon_rgb wr wg wb yo x) = 3%nat.
Proof. intros wr wg wb yo [[a b] c]. reflexivity. Qed.
(** A picture of three samples for each pixel, every pixel changed *)
Lemma colours_image : forall wr wg wb yo out w2 H pix n, 0 <= w2 -> is_image out (3 * w2) H pix -> length out = (3 * n)%nat ->
  is_image (flat_map (canon_rgb wr wg wb yo) (pixels_of out n)) (3 * w2) H
    (fun r s => let p := s - s mod 3 in nth (Z.to_nat (s mod 3)) (canon_rgb wr wg wb yo (pix r p, pix r (p + 1), pix r (p + 2))) 0).
Proof.
  intros wr wg wb yo out w2 H pix n Hw [L P] Hl. split; [rewrite triples_length by apply rgb_length; lia|].
  intros r s Hr Hs. pose proof (Z.div_mod s 3 ltac:(lia)) as Q. pose proof (Z.mod_pos_bound s 3 ltac:(lia)) as Q2. cbv zeta.
  remember (s / 3) as a. remember (s mod 3) as b. assert (Ha : 0 <= a < w2) by lia.
  assert (R1 : 0 <= r * w2) by nia. assert (R2 : r * w2 + a < w2 * H) by nia.
  replace (Z.to_nat (r * (3 * w2) + s)) with (3 * Z.to_nat (r * w2 + a) + Z.to_nat b)%nat by nia.
  rewrite triples_nth by (try apply rgb_length; lia). f_equal. f_equal. unfold pixel_of.
  assert (G : forall d, 0 <= d < 3 -> nth (3 * Z.to_nat (r * w2 + a) + Z.to_nat d) out 0 = pix r (s - b + d)).
  { intros d Hd. rewrite <- P by lia. f_equal. nia. }
  pose proof (G 0 ltac:(lia)) as G0. pose proof (G 1 ltac:(lia)) as G1. pose proof (G 2 ltac:(lia)) as G2.
  change (Z.to_nat 0) with 0%nat in G0. change (Z.to_nat 1) with 1%nat in G1. change (Z.to_nat 2) with 2%nat in G2. rewrite Nat.add_0_r, Z.add_0_r in G0. rewrite G0, G1, G2. reflexivity.
Qed.

Section Any.
Context {M : Mode}.
Lemma small_jpeg : forall v w h pic stored, holds_small_jpeg debug v w h pic stored -> Z.of_nat (length stored) + 16 < 2 ^ 32 ->
  exists lj out, ljpeg_new (stored ++ zeros 16) = Ok lj /\ lj_width lj = 6 * w /\ lj_height lj = v * h /\ (v = 1 \/ v = 2) /\ 0 < w /\ 0 < h /\
    lj_super_h lj = Ok 2 /\ lj_super_v lj = Ok v /\
    ljpeg_decode lj (zeros (6 * w * (v * h))) 0 (6 * w) (6 * w) (v * h) = Ok out /\ is_image out (6 * w) (v * h) (sub_sample v pic) /\ samples out.
Proof.
  intros v w h pic stored (hs & prec & id1 & id2 & id3 & s2 & s3 & tables & predictor & pt & data & tail & filler & E & Hv & H1 & H2 & H3 & H4 & H5 & H6 & H7 & H8 & H9 & H10 & H11 & H12 & H13 & H14 & H15) Hl.
  assert (Ez : stored ++ zeros 16 = jpeg_sampled hs prec (2 * w) (v * h) [(id1, (2, v)); (id2, s2); (id3, s3)] tables predictor pt (stuff data ++ [255; 217] ++ tail ++ zeros 16))
    by (rewrite E; unfold jpeg_sampled; rewrite <- !app_assoc; reflexivity).
  assert (Lz : length (zeros 16) = 16%nat) by reflexivity.
  destruct (sub_file hs prec v w h id1 id2 id3 s2 s3 tables predictor pt data (tail ++ zeros 16) false false pic filler) as (lj & L1 & L2 & L3 & L4); try assumption; try discriminate.
  - apply Forall_app. split; [exact H12|apply zeros_bytes].
  - change (217 :: tail ++ zeros 16) with ((217 :: tail) ++ zeros 16). change (zeros 16) with (repeat 0 15 ++ [0]). rewrite app_assoc, last_last. discriminate.
  - rewrite !app_length, Lz. rewrite E in Hl. unfold jpeg_sampled in Hl. rewrite !app_length in Hl. lia.
  - destruct (snew_file hs prec (2 * w) (v * h) [(id1, (2, v)); (id2, s2); (id3, s3)] tables predictor pt (stuff data ++ [255; 217] ++ tail ++ zeros 16) false false
      H1 H2 H3 ltac:(lia) ltac:(lia) ltac:(lia) ltac:(cbn [length]; lia) (factors_all _ H7) H8 H9 H10 ltac:(discriminate)) as [lj' [E' [_ [_ [_ [[cmps [Es Ecomps]] _]]]]]].
    rewrite L1 in E'. injection E' as <-.
    destruct (comp_first [(id1, (2, v)); (id2, s2); (id3, s3)] tables _ _ _ _ H9 eq_refl) as [t0 Ef]. rewrite <- Ecomps in Ef.
    assert (Ln : Z.of_nat (length (zeros (6 * w * (v * h)))) = 6 * w * (v * h)) by (unfold zeros; rewrite repeat_length; assert (0 < v * h) by nia; nia).
    destruct (L4 (zeros (6 * w * (v * h))) 0 (6 * w)) as (out & D1 & D2 & D3 & _); [lia|].
    assert (Im : is_image out (6 * w) (v * h) (sub_sample v pic)) by (split; [rewrite D2; lia|exact D3]).
    exists lj, out. unfold ljpeg_new. rewrite Ez. repeat (split; [assumption || lia|]). unfold lj_super_h, lj_super_v. rewrite Es. cbn [s_comps]. rewrite Ef.
    split; [reflexivity|]. split; [reflexivity|]. split; [exact D1|]. split; [exact Im|].
    apply Forall_forall. intros x Hx. destruct (In_nth _ _ 0 Hx) as (k & Hk & <-).
    assert (W6 : 0 < 6 * w) by lia. pose proof (Z.div_mod (Z.of_nat k) (6 * w) ltac:(lia)) as Q. pose proof (Z.mod_pos_bound (Z.of_nat k) (6 * w) W6) as Q2.
    set (R := Z.of_nat k / (6 * w)) in *. set (q := Z.of_nat k mod (6 * w)) in *.
    assert (HR : 0 <= R < v * h) by (split; [apply Z.div_pos; lia|apply Z.div_lt_upper_bound; lia]).
    replace k with (Z.to_nat (R * (6 * w) + q)) by lia. rewrite D3 by assumption. clearbody R q.
    unfold sub_sample. assert (A : 0 <= R / v < h) by (split; [apply Z.div_pos; lia|apply Z.div_lt_upper_bound; lia]).
    assert (B : 0 <= q / 6 < w) by (split; [apply Z.div_pos; lia|apply Z.div_lt_upper_bound; lia]).
    pose proof (Z.mod_pos_bound R v ltac:(lia)). pose proof (Z.mod_pos_bound q 6 ltac:(lia)). assert (0 <= q mod 6 / 3 < 2) by (split; [apply Z.div_pos; lia|apply Z.div_lt_upper_bound; lia]).
    pose proof (Z.mod_pos_bound q 3 ltac:(lia)). assert (q mod 3 = 0 \/ q mod 3 = 1 \/ q mod 3 = 2) as [-> |[-> | ->]] by lia; apply H13; lia.
Qed.

Lemma small_arranged : forall big fs root sub lj v w h q out p, Parsed big fs root sub -> v = 1 \/ v = 2 -> 0 < w -> 0 < h -> lj_width lj = 6 * w ->
  lj_super_h lj = Ok 2 -> lj_super_v lj = Ok v -> is_image out (6 * w) (v * h) q -> arranged fs v w h q p ->
  exists image, cr2_stripes sub lj 3 (6 * w) (v * h) out = Ok image /\ is_image image (6 * w) (v * h) p.
Proof.
  intros big fs root sub lj v w h q out p P Hv Hw Hh Lw Sh Sv Im A. unfold cr2_stripes.
  destruct A as [Hk|k sw la Ev Hk K1 K2 K3|k t la Ev Hk K1 K2 K3].
  - rewrite (proj2 (p_none _ _ _ _ P _ Hk)). exists out. auto.
  - subst v. destruct (numbers_found _ _ _ _ _ _ P Hk) as (en & _ & E & _ & R'). rewrite E.
    destruct (R' 0%nat k eq_refl) as (R1 & _ & V1). destruct (R' 1%nat sw eq_refl) as (R2 & _ & V2). destruct (R' 2%nat la eq_refl) as (R3 & _ & V3).
    change (Z.of_nat 0) with 0 in R1. change (Z.of_nat 1) with 1 in R2. change (Z.of_nat 2) with 2 in R3. rewrite R1, R2, R3. cbn [bind].
    replace (k =? 0) with false by lia. rewrite Sh, Sv. cbn [bind]. change (1 =? 2) with false. cbn iota.
    assert (A1 : 0 < sw / 2) by (apply Z.div_str_pos; lia). assert (A2 : 0 <= la / 2) by (apply Z.div_pos; lia).
    assert (B1 : 0 < sw / 2 * 3) by lia. assert (B2 : 0 <= la / 2 * 3) by lia.
    replace (1 * h) with h in * by lia. destruct Im as [J10 J11].
    destruct (stripes_placed (sw / 2 * 3) (la / 2 * 3) h out B1 B2 ltac:(lia) k (6 * w) 2 3 sw la ltac:(lia) ltac:(lia) J10 ltac:(lia) eq_refl eq_refl) as (image & S1 & S2 & S3).
    exists image. split; [exact S1|]. split; [exact S2|]. intros r c Hr Hc. rewrite S3 by assumption. cbv zeta.
    pose proof (place_range (sw / 2 * 3) (la / 2 * 3) h B1 B2 ltac:(lia) k r c ltac:(lia) Hr ltac:(lia)) as Pr. rewrite K3 in Pr.
    remember (stripe_place k (sw / 2 * 3) (la / 2 * 3) h r c) as pl.
    assert (0 < 6 * w) by lia. pose proof (Z.div_mod pl (6 * w) ltac:(lia)). pose proof (Z.mod_pos_bound pl (6 * w) ltac:(lia)).
    assert (0 <= pl / (6 * w) < h) by (split; [apply Z.div_pos; lia|apply Z.div_lt_upper_bound; lia]).
    rewrite <- J11 by assumption. f_equal. lia.
  - subst v. destruct (numbers_found _ _ _ _ _ _ P Hk) as (en & _ & E & _ & R'). rewrite E.
    destruct (R' 0%nat k eq_refl) as (R1 & _ & V1). destruct (R' 1%nat (3 * t) eq_refl) as (R2 & _ & V2). destruct (R' 2%nat la eq_refl) as (R3 & _ & V3).
    change (Z.of_nat 0) with 0 in R1. change (Z.of_nat 1) with 1 in R2. change (Z.of_nat 2) with 2 in R3. rewrite R1, R2, R3. cbn [bind].
    replace (k =? 0) with false by lia. rewrite Sh, Sv. cbn [bind]. change (2 =? 2) with true. cbn iota. rewrite Lw.
    apply (Props_Sensor.C35_two_lines out q (6 * w) (2 * h) (6 * w) (2 * h) (3 * t) (k + 1) t h (2 * w) h); try lia; try assumption.
    + nia.
    + unfold field_widths. rewrite app_length, repeat_length. cbn [length]. lia.
    + unfold field_widths. destruct (Z.to_nat k) as [|m] eqn:Em; [lia|]. reflexivity.
Qed.

Lemma three_shown : forall cam o W w h wb image img, ok_image (set_orientation o cam) W h wb image = Ok img -> W = 2 * w * 3 ->
  shows_colours (img_three img) cam o (2 * w) h.
Proof.
  intros cam o W w h wb image img I EW. unfold ok_image in I. destruct (black_levels _ _ _ _) as [bl| | |]; cbn [bind] in I; try discriminate I. injection I as <-.
  split; cbn [img_three i_width i_height i_cpp i_make i_model i_clean_make i_clean_model i_xyz_to_cam i_whites i_blacks i_crops i_orientation]; try reflexivity.
  - rewrite EW. apply Z.div_mul. lia.
  - split; reflexivity.
Qed.

Context (powf : f32 -> f32 -> f32) (parse_f32 : string -> option f32).
Variables (db : list table) (l : loader).
Hypothesis Hl : loader_new db = Ok l.
Ltac enter G := eapply lib_decodes; [exact Hl|]; unfold decode; rewrite G; cbn [bind decoder_image].

Lemma canon_small_file : forall big fs model gap data file o cam v w h jpeg pic vs p wr wg wg' wb,
  photo l "" big fs "Canon" model T_StripOffsets gap data file o cam ->
  In T_Cr2Id (map f_tag fs) \/ In T_CFAPattern (map f_tag fs) -> find_hint cam "linearization" = false ->
  has_number fs T_ImageWidth (2 * w) /\ has_number fs T_ImageLength (v * h) \/ has_no fs T_ImageWidth /\ v * h <= 2 * w ->
  In (mkfield T_Cr2ColorData 3 vs) fs -> samples vs -> p = (if c_wb_offset cam =? 0 then 63 else c_wb_offset cam) -> 0 <= p ->
  firstn 4 (skipn (Z.to_nat p) vs) = [wr; wg; wg'; wb] -> 56 <= wr -> wg <= 27948 -> 56 <= wb ->
  holds_small_jpeg debug v w h jpeg data ->
  arranged fs v w h (small_rgb wr wg wb (if find_hint cam "40d_yuv" then 512 else 0) v jpeg) pic ->
  exists img, lib_decode powf parse_f32 db file = Ok img /\ shows_colours img cam o (2 * w) (v * h) /\ is_image (i_data img) (6 * w) (v * h) pic /\ balance img wr wg wb.
Proof.
  intros big fs model gap data file o cam v w h jpeg pic vs p wr wg wg' wb Hp Hid Hh1 Hsz Hf Hvs Ep Hpp Hlev Hwr Hwg Hwb Hj Ha.
  destruct (photo_opened _ _ _ _ _ _ _ _ _ _ _ _ CR2 Hp eq_refl) as (root & sub & [G P (off & O1 & O2 & O3) C B N]).
  assert (Hs : Z.of_nat (length data) + 16 < 2 ^ 32).
  { pose proof (ph_file _ _ _ _ _ _ _ _ _ _ _ _ Hp) as [_ Ef Hsize _ _]. rewrite Ef, !app_length in Hsize. lia. }
  destruct (small_jpeg v w h jpeg data Hj Hs) as (lj & out & J1 & J2 & J3 & Hv & J5 & J6 & J7 & J8 & J9 & J10 & J11).
  assert (R : cr2_raw root = Ok (sub, off)).
  { unfold cr2_raw. assert (Hff : forall tag, In tag (map f_tag fs) -> find_first_ifd root tag = Some sub).
    { intros tag Ht. pose proof (ifd_found _ _ _ _ _ P Ht) as F. unfold fetch_ifd in F. destruct (find_first_ifd root tag); [congruence|discriminate F]. }
    destruct Hid as [Hid|Hid]; [rewrite (Hff _ Hid), O2; reflexivity|].
    destruct (in_dec Z.eq_dec T_Cr2Id (map f_tag fs)) as [Hi|Hi]; [rewrite (Hff _ Hi), O2; reflexivity|].
    rewrite (p_absent _ _ _ _ P _ Hi), (Hff _ Hid), O2. reflexivity. }
  (* white balance *)
  destruct (short_forced _ _ _ _ _ _ P Hf Hvs) as (en & En & Rd).
  assert (Q : forall i x, nth_error [wr; wg; wg'; wb] i = Some x -> get_force_u16 en (p + Z.of_nat i) = Ok x /\ sample x).
  { intros i x Hi. rewrite <- Hlev in Hi. apply slice_nth in Hi. split; [|exact (proj1 (Forall_forall _ _) Hvs x (nth_error_In _ _ Hi))].
    rewrite <- (Rd _ _ Hi). f_equal. lia. }
  destruct (Q 0%nat wr eq_refl) as [Q1 S1]. destruct (Q 1%nat wg eq_refl) as [Q2 S2]. destruct (Q 3%nat wb eq_refl) as [Q3 S3].
  replace (p + Z.of_nat 0) with p in Q1 by lia. change (Z.of_nat 1) with 1 in Q2. change (Z.of_nat 3) with 3 in Q3.
  (* colours *)
  assert (L3 : exists n, length out = (3 * n)%nat).
  { exists (Z.to_nat (2 * w * (v * h))). destruct J10 as [L _]. assert (0 < v * h) by nia. nia. }
  destruct L3 as [n Ln]. pose proof (pixels_all out n Ln) as Px.
  assert (Cv : convert_to_rgb root (set_orientation o cam) out = Ok (flat_map (canon_rgb wr wg wb (if find_hint cam "40d_yuv" then 512 else 0)) (pixels_of out n))).
  { rewrite <- Px at 1. apply (Props_Meta.C52_colours_partial M root (set_orientation o cam) en wr wg wb (pixels_of out n) En).
    - change (c_wb_offset (set_orientation o cam)) with (c_wb_offset cam). rewrite <- Ep. exact Q1.
    - change (c_wb_offset (set_orientation o cam)) with (c_wb_offset cam). rewrite <- Ep. exact Q2.
    - change (c_wb_offset (set_orientation o cam)) with (c_wb_offset cam). rewrite <- Ep. exact Q3.
    - unfold sample in S1. lia.
    - unfold sample in S2. lia.
    - unfold sample in S3. lia.
    - rewrite Px. exact J11. }
  set (colours := flat_map _ (pixels_of out n)) in Cv.
  assert (Ic : is_image colours (6 * w) (v * h) (small_rgb wr wg wb (if find_hint cam "40d_yuv" then 512 else 0) v jpeg)).
  { unfold colours, small_rgb. replace (6 * w) with (3 * (2 * w)) in * by lia. apply colours_image; [lia|exact J10|exact Ln]. }
  destruct (small_arranged big fs root sub lj v w h _ colours pic P Hv J5 J6 J2 J7 J8 Ic Ha) as (image & St & Si).
  assert (W : cr2_wb root (set_orientation o cam) = Ok (V4 (f32_of wr) (f32_of wg) (f32_of wb) NAN)).
  { unfold cr2_wb. rewrite En. change (c_wb_offset (set_orientation o cam)) with (c_wb_offset cam).
    replace (if negb (c_wb_offset cam =? 0) then c_wb_offset cam else 63) with p by (rewrite Ep; destruct (c_wb_offset cam =? 0); reflexivity).
    cbv zeta. rewrite Q1, Q2, Q3. reflexivity. }
  assert (Sz : cr2_size root sub (set_orientation o cam) 3 (6 * w) (v * h) out = Ok (6 * w, v * h, colours)).
  { unfold cr2_size. change (3 =? 3) with true. cbn iota. rewrite Cv. cbn [bind]. unfold has_entry. destruct Hsz as [[Z1 Z2]|[Z1 Z2]].
    - destruct (number_read _ _ _ _ _ _ P Z1) as (e1 & _ & F1 & _). rewrite F1. rewrite (proj2 (usize_read _ _ _ _ _ _ P Z1)), (proj2 (usize_read _ _ _ _ _ _ P Z2)). cbn [bind].
      f_equal. f_equal. f_equal. lia.
    - rewrite (proj2 (p_none _ _ _ _ P _ Z1)). replace (6 * w / 3) with (2 * w) by (rewrite (Z.mul_comm 6 w); replace (w * 6) with (2 * w * 3) by lia; symmetry; apply Z.div_mul; lia).
      replace (2 * w <? v * h) with false by lia. reflexivity. }
  destruct (finished cam o (6 * w) (v * h) (V4 (f32_of wr) (f32_of wg) (f32_of wb) NAN) image N) as (img & I1 & I2 & I3 & I4 & I5).
  exists (img_three img). split; [|split; [|split]].
  - enter G. unfold cr2_image, check_supported. rewrite C. cbn [bind]. rewrite R. cbn [bind]. rewrite O3. cbn [bind]. rewrite J1. cbn [bind]. cbv zeta. rewrite J7. cbn [bind].
    rewrite J2, J3. change (2 =? 2) with true. cbn iota. rewrite J9. cbn [bind]. unfold cr2_linearize. change (find_hint (set_orientation o cam)) with (find_hint cam). rewrite Hh1. cbn [bind].
    rewrite Sz. cbn [bind]. rewrite St. cbn [bind]. rewrite W. cbn [bind]. rewrite I1. reflexivity.
  - apply (three_shown cam o (6 * w) w (v * h) _ image img I1). lia.
  - cbn [img_three i_data]. rewrite I3. exact Si.
  - unfold balance. cbn [img_three i_wb]. rewrite I5. cbn [e0 e1 e2 e3]. unfold sample in *. repeat split; try (apply number_near; lia).
Qed.
End Any.
