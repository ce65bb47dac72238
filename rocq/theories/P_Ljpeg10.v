(** Proofs about lossless JPEG: Hasselblad. *)
From Coq Require Import String ZArith List Bool Lia ZifyBool ZifyNat.
From Verif Require Import Base Bytes Pumps ByteStream Threads Packed Huffman Ljpeg Spec_Bits Spec_Pump Spec_Stream Spec_Huffman Spec_Ljpeg
  P_Base P_Bits P_Pumps P_Threads P_Huff1 P_Huff2 P_Huff3 P_Huff4 P_Huff5 P_Huff6 P_Ljpeg1 P_Ljpeg2 P_Ljpeg3 P_Ljpeg6 P_Ljpeg8.
Import ListNotations.
Local Open Scope Z_scope.
Ltac Zify.zify_post_hook ::= Z.div_mod_to_equations.

Section Hass.
Context {M : Mode}.
Variables (prec : Z) (dng : bool) (c : hcode) (t : hufftable).
Hypothesis Hp : 0 <= prec <= 16.
Hypothesis Hg : good_code debug prec c.
Hypothesis Hd : dng = true -> ~ In 16 (hc_syms c).
Hypothesis Hn : huff_new (0 :: hc_counts c) (padded (hc_syms c)) prec dng = Ok t.

Lemma one_len : forall d p rest, has_word prec c d -> (8 <= length rest)%nat -> Repr MSB32 p (word_of c d ++ rest) ->
  exists p', huff_len MSB32 t p = Ok (Z.of_nat (category d), p') /\ Repr MSB32 p' rest.
Proof.
  intros d p rest [Hi Hw] Hl R. destruct Hg as [Hc [Hs [Hf [_ H16]]]].
  destruct (t_built (hc_counts c) (hc_syms c) prec dng t Hc Hs Hf Hn) as [A [B _]].
  destruct (position_nth _ _ Hi) as [P1 P2].
  destruct (symbols_ok (hc_counts c) Hc (hc_syms c) (proj1 Hs) (s_bytes _ _ Hs) M t A MSB32 [category_word c (category d)] p rest) as [p' [E R']].
  - discriminate.
  - exact Hl.
  - constructor; [|constructor]. split; [unfold category_word; rewrite <- (proj1 Hs); exact P1|]. unfold usable. rewrite B. exact Hw.
  - unfold encode. cbn [flat_map]. rewrite app_nil_r. exact R.
  - cbn [length times map] in E. exists p'. split; [|exact R'].
    destruct (huff_len MSB32 t p) as [[v p1]| | |]; cbn in E; try discriminate. apply Ok_inj in E. unfold category_word in E. rewrite P2 in E. congruence.
Qed.
Lemma one_diff : forall d p rest, has_word prec c d -> -32768 <= d <= 32767 -> (16 <= length rest)%nat -> Repr MSB32 p (extra_of d ++ rest) ->
  exists p', huff_diff MSB32 t p (Z.of_nat (category d)) = Ok (d, p') /\ Repr MSB32 p' rest.
Proof.
  intros d p rest [Hi _] Hr Hl R. destruct Hg as [Hc [Hs [Hf [_ H16]]]].
  destruct (t_built (hc_counts c) (hc_syms c) prec dng t Hc Hs Hf Hn) as [A [B [C _]]].
  destruct (category_range d Hr) as [C1 C2]. unfold extra_of in R. destruct (category d =? 16)%nat eqn:E16.
  - assert (E : category d = 16%nat) by lia. rewrite E in *. change (Z.of_nat 16) with 16 in *.
    assert (Hdn : hdng t = false) by (rewrite C; destruct dng; [exfalso; apply (Hd eq_refl); exact Hi|reflexivity]).
    destruct (huff_diff_16 M t MSB32 p rest ltac:(discriminate) R ltac:(lia)) as [p' [E1 R1]]. rewrite Hdn in R1. cbn [skipn] in R1.
    exists p'. split; [|exact R1]. rewrite E1. f_equal. f_equal. symmetry. apply C2. reflexivity.
  - destruct (difference_extra d) as [X1 X2]. rewrite binary_zbits in R.
    destruct (huff_diff_ok M t MSB32 p _ (category d) ltac:(discriminate) R) as [p' [E1 R1]]; [lia|rewrite app_length, zbits_length; lia|].
    exists p'.
    assert (F1 : firstn (category d) (zbits (category d) (extra d) ++ rest) = zbits (category d) (extra d)).
    { rewrite <- (zbits_length (category d) (extra d)) at 1. apply firstn_pre. }
    assert (F2 : skipn (category d) (zbits (category d) (extra d) ++ rest) = rest).
    { rewrite <- (zbits_length (category d) (extra d)) at 1. apply skipn_pre. }
    rewrite F1, number_zbits, Z.mod_small, X2 in E1 by assumption. rewrite F2 in R1. split; assumption.
Qed.

Lemma pair_ok : forall x y a1 a2 p d1 d2 rest,
  has_word prec c d1 -> has_word prec c d2 -> -32768 <= d1 <= 32767 -> -32768 <= d2 <= 32767 ->
  -2147450000 <= a1 <= 2147450000 -> -2147450000 <= a2 <= 2147450000 -> (32 <= length rest)%nat ->
  Repr MSB32 p (hass_pair c d1 d2 ++ rest) ->
  exists p', hasselblad_pair t [x; y] (a1, a2, p) = Ok ([as_u16 (a1 + d1); as_u16 (a2 + d2)], (a1 + d1, a2 + d2, p')) /\ Repr MSB32 p' rest.
Proof.
  intros x y a1 a2 p d1 d2 rest W1 W2 D1 D2 A1 A2 Hl R. unfold hass_pair in R. rewrite <- !app_assoc in R. unfold hasselblad_pair.
  destruct (one_len d1 p (word_of c d2 ++ extra_of d1 ++ extra_of d2 ++ rest) W1 ltac:(rewrite !app_length; lia) R) as [p1 [E1 R1]]. rewrite E1. cbn [bind].
  destruct (one_len d2 p1 (extra_of d1 ++ extra_of d2 ++ rest) W2 ltac:(rewrite !app_length; lia) R1) as [p2 [E2 R2]]. rewrite E2. cbn [bind].
  destruct (one_diff d1 p2 (extra_of d2 ++ rest) W1 D1 ltac:(rewrite !app_length; lia) R2) as [p3 [E3 R3]]. rewrite E3. cbn [bind].
  rewrite i32add_ok by lia. cbn [bind].
  destruct (one_diff d2 p3 rest W2 D2 ltac:(lia) R3) as [p4 [E4 R4]]. rewrite E4. cbn [bind].
  rewrite i32add_ok by lia. cbn [bind]. exists p4. split; [reflexivity|exact R4].
Qed.

Variables (pic : picture) (w h : Z).
Hypothesis Hpic : picture_of_samples pic 2 w h.
Hypothesis Hcod : forall r j i, 0 <= r < h -> 0 <= j < w -> 0 <= i < 2 -> has_word prec c (hass_residual pic r j i).
Hypothesis Hw : w <= 32767.

Lemma two : forall (l : list Z) n, length l = (2 * S n)%nat -> exists x y l', l = x :: y :: l' /\ length l' = (2 * n)%nat.
Proof. intros l n E. destruct l as [|x [|y l']]; cbn in E; try lia. exists x, y, l'. split; [reflexivity|lia]. Qed.

Lemma line_ok : forall r n j line a1 a2 p rest, 0 <= r < h -> 0 <= j -> j + Z.of_nat n = w -> length line = (2 * n)%nat ->
  a1 mod 65536 = hass_prediction pic r j 0 -> a2 mod 65536 = hass_prediction pic r j 1 ->
  Z.abs a1 <= 32768 * (j + 1) -> Z.abs a2 <= 32768 * (j + 1) -> (32 <= length rest)%nat ->
  Repr MSB32 p (flat_map (fun j => hass_pair c (hass_residual pic r j 0) (hass_residual pic r j 1)) (zrange j w) ++ rest) ->
  exists b1 b2 p', map_state (hasselblad_pair t) (chunks 2 line) (a1, a2, p) =
    Ok (flat_map (fun j => [pic r j 0; pic r j 1]) (zrange j w), (b1, b2, p')) /\ Repr MSB32 p' rest.
Proof.
  intros r. induction n as [|n IH]; intros j line a1 a2 p rest Hr Hj Hjw Hlen P1 P2 B1 B2 Hl R.
  - destruct line; [|discriminate]. rewrite chunks_nil. rewrite zrange_empty in * by lia. exists a1, a2, p. split; [reflexivity|exact R].
  - destruct (two line n Hlen) as [x [y [l' [-> Hl']]]].
    rewrite chunks_cons; [|lia|discriminate]. cbn [firstn skipn map_state].
    rewrite zrange_cons in R by lia. rewrite zrange_cons by lia. cbn [flat_map] in *. rewrite <- app_assoc in R.
    set (d1 := hass_residual pic r j 0) in *. set (d2 := hass_residual pic r j 1) in *.
    assert (D1 : -32768 <= d1 <= 32767) by apply wrap16_range. assert (D2 : -32768 <= d2 <= 32767) by apply wrap16_range.
    destruct (pair_ok x y a1 a2 p d1 d2 (flat_map (fun j => hass_pair c (hass_residual pic r j 0) (hass_residual pic r j 1)) (zrange (j + 1) w) ++ rest)) as [p1 [E1 R1]].
    + apply Hcod; lia.
    + apply Hcod; lia.
    + exact D1.
    + exact D2.
    + lia.
    + lia.
    + rewrite app_length. lia.
    + exact R.
    + rewrite E1. cbn [bind].
      assert (V : forall a d i, 0 <= i < 2 -> a mod 65536 = hass_prediction pic r j i -> d = hass_residual pic r j i -> (a + d) mod 65536 = pic r j i).
      { intros a d i Hi Ea Ed. rewrite Ed. unfold hass_residual. rewrite <- Ea. rewrite <- Z.add_mod_idemp_l by lia. apply wrap16_undo. apply Hpic; lia. }
      assert (N : forall i, hass_prediction pic r (j + 1) i = pic r j i).
      { intros i. unfold hass_prediction. replace (j + 1 =? 0) with false by lia. f_equal. lia. }
      destruct (IH (j + 1) l' (a1 + d1) (a2 + d2) p1 rest) as [b1 [b2 [p2 [E2 R2]]]]; try lia.
      * rewrite N. apply V; [lia|exact P1|reflexivity].
      * rewrite N. apply V; [lia|exact P2|reflexivity].
      * exact R1.
      * rewrite E2. cbn [bind]. exists b1, b2, p2. split; [|exact R2].
        unfold as_u16. change (2 ^ 16) with 65536.
        rewrite (V a1 d1 0 ltac:(lia) P1 eq_refl), (V a2 d2 1 ltac:(lia) P2 eq_refl). reflexivity.
Qed.

Lemma lines_ok : forall n r out p rest, 0 < w -> 0 <= r -> r + Z.of_nat n = h -> length out = (Z.to_nat (2 * w) * n)%nat -> (32 <= length rest)%nat ->
  Repr MSB32 p (flat_map (fun r => flat_map (fun j => hass_pair c (hass_residual pic r j 0) (hass_residual pic r j 1)) (zrange 0 w)) (zrange r h) ++ rest) ->
  exists p', map_state (fun line p =>
      '(line, (_, _, p)) <- map_state (hasselblad_pair t) (chunks 2 line) (0x8000, 0x8000, p) ;;
      Ok (line, p)) (chunks (Z.to_nat (2 * w)) out) p = Ok (flat_map (fun r => flat_map (fun j => [pic r j 0; pic r j 1]) (zrange 0 w)) (zrange r h), p').
Proof.
  induction n as [|n IH]; intros r out p rest Hw0 Hr Hrh Hlen Hl R.
  - assert (E : out = []) by (apply length_zero_iff_nil; rewrite Hlen; apply Nat.mul_0_r). rewrite E. rewrite (zrange_empty r h) by lia. exists p. reflexivity.
  - rewrite chunks_cons; [|lia|destruct out; [cbn [length] in Hlen; nia|discriminate]].
    cbn [map_state]. rewrite (zrange_cons r h) in R by lia. rewrite (zrange_cons r h) by lia. cbn [flat_map] in *. rewrite <- app_assoc in R.
    destruct (line_ok r (Z.to_nat w) 0 (firstn (Z.to_nat (2 * w)) out) 32768 32768 p
      (flat_map (fun r => flat_map (fun j => hass_pair c (hass_residual pic r j 0) (hass_residual pic r j 1)) (zrange 0 w)) (zrange (r + 1) h) ++ rest)) as [b1 [b2 [p1 [E1 R1]]]]; try lia.
    + rewrite firstn_length. nia.
    + reflexivity.
    + reflexivity.
    + rewrite app_length. lia.
    + exact R.
    + rewrite E1. cbn [bind].
      destruct (IH (r + 1) (skipn (Z.to_nat (2 * w)) out) p1 rest) as [p2 E2]; try lia.
      * rewrite skipn_length. nia.
      * exact R1.
      * rewrite E2. cbn [bind]. exists p2. reflexivity.
Qed.
End Hass.

Lemma hasselblad_ok : forall {M : Mode} lj dng c t pic w h out pad rest,
  let P := s_precision (lj_sof lj) in
  0 <= P <= 16 -> good_code debug P c -> (dng = true -> ~ In 16 (hc_syms c)) ->
  lj_table lj 0 = Ok t -> huff_new (0 :: hc_counts c) (padded (hc_syms c)) P dng = Ok t ->
  readable MSB32 (lj_buffer lj) -> stream MSB32 (lj_buffer lj) pad = hass_coded c pic w h ++ rest -> (32 <= length rest)%nat ->
  picture_of_samples pic 2 w h ->
  (forall r j i, 0 <= r < h -> 0 <= j < w -> 0 <= i < 2 -> has_word P c (hass_residual pic r j i)) ->
  0 < w <= 32767 -> 0 <= h -> Z.of_nat (length out) = 2 * w * h ->
  decode_hasselblad lj out (2 * w) = Ok (hass_samples pic w h).
Proof.
  intros M lj dng c t pic w h out pad rest P HP Hg Hd HT Hn Hr Es Hl Hpic Hcod Hw Hh Hlen.
  unfold decode_hasselblad. rewrite HT. cbn [bind]. replace (2 * w =? 0) with false by lia.
  pose proof (Repr_new MSB32 (lj_buffer lj) pad Hr) as R. rewrite Es in R. unfold hass_coded in R. rewrite !upto_zrange in R.
  destruct (lines_ok P dng c t Hg Hd Hn pic w h Hpic Hcod ltac:(lia) (Z.to_nat h) 0 out _ rest ltac:(lia) ltac:(lia) ltac:(lia) ltac:(nia) Hl R) as [p' E].
  rewrite E. cbn [bind]. unfold hass_samples. rewrite !upto_zrange. reflexivity.
Qed.
