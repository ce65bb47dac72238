(** DNG files (C54): the samples, and everything together. *)
From Coq Require Import String Ascii ZArith List Bool Reals Lia ZifyBool ZifyNat.
From Flocq Require Import Core BinarySingleNaN.
From Verif Require Import Base Num F32 Bytes Pumps Cfa Packed Threads Ljpeg Tiff Transform Image Camera Clients Decoder Dec_Ljpeg Dispatch.
From Verif Require Import Spec_Bits Spec_Image Spec_Stream Spec_Packed Spec_Cfa Spec_Tiff Spec_Camera Spec_Known Spec_Huffman Spec_Ljpeg Spec_Meta Spec_File Spec_Dng.
From Verif Require Import P_Base P_Bits P_F32 P_Threads P_Tiff3 P_Tiff5 P_Pana3 P_File1 P_File2 P_File4 P_Dng1.
From Verif Require Props_Packed Props_Ljpeg.
Import ListNotations.
Local Open Scope Z_scope.

Ltac Zify.zify_post_hook ::= Z.div_mod_to_equations.
(** A picture decoded in parts of [n] rows *)
Lemma multiline_parts : forall w h n (f : list Z -> Z -> res (list Z)) (P : Z -> Z -> Prop), 0 < w -> 0 <= h -> 0 < n ->
  (forall j m, 0 <= j -> j * n < h -> m = Z.min n (h - j * n) -> exists line, f (zeros (w * m)) (j * n) = Ok line /\ zlen line = w * m /\
     forall c, 0 <= c < w * m -> P (w * (j * n) + c) (znth line c)) ->
  exists img, decode_threaded_multiline w h n f = Ok img /\ zlen img = w * h /\ forall k, 0 <= k < w * h -> P k (znth img k).
Proof.
  intros w h n f P Hw Hh Hn H. unfold decode_threaded_multiline. replace (w * n =? 0) with false by nia. cbv zeta.
  assert (G : forall q j, 0 <= j -> (Z.to_nat (h - j * n) <= q)%nat -> exists ls,
    mapM (fun '(row, line) => f line (row * n)) (combine (zrange j (j + zlen (chunks (Z.to_nat (w * n)) (zeros (w * (h - j * n)))))) (chunks (Z.to_nat (w * n)) (zeros (w * (h - j * n))))) = Ok ls /\
    zlen (concat ls) = Z.max 0 (w * (h - j * n)) /\ forall k, 0 <= k < w * (h - j * n) -> P (w * (j * n) + k) (znth (concat ls) k)).
  { induction q as [|q IH]; intros j Hj Hq.
    - assert (h - j * n <= 0) by lia. unfold zeros. replace (Z.to_nat (w * (h - j * n))) with 0%nat by nia. cbn [repeat chunks chunks_aux]. replace (chunks (Z.to_nat (w * n)) []) with (@nil (list Z)) by (unfold chunks; reflexivity). exists []. split; [destruct (zrange j _); reflexivity|split; [cbn; nia|nia]].
    - destruct (Z.le_gt_cases (h - j * n) 0) as [L|L].
      { apply (IH j Hj). lia. }
      set (m := Z.min n (h - j * n)).
      assert (Ec : chunks (Z.to_nat (w * n)) (zeros (w * (h - j * n))) = zeros (w * m) :: chunks (Z.to_nat (w * n)) (zeros (w * (h - (j + 1) * n)))).
      { rewrite chunks_cons; [|nia|unfold zeros; assert (0 < Z.to_nat (w * (h - j * n)))%nat by nia; destruct (Z.to_nat (w * (h - j * n))); [lia|discriminate]].
        unfold zeros. rewrite skipn_repeat. f_equal.
        - unfold m. destruct (Z.le_gt_cases n (h - j * n)) as [Q|Q].
          + rewrite Z.min_l by lia. apply firstn_repeat_le. nia.
          + rewrite Z.min_r by lia. apply firstn_all2. rewrite repeat_length. nia.
        - f_equal. f_equal. nia. }
      rewrite Ec. rewrite zlen_cons. pose proof (zlen_nonneg (chunks (Z.to_nat (w * n)) (zeros (w * (h - (j + 1) * n))))) as Hz. set (cs := chunks (Z.to_nat (w * n)) (zeros (w * (h - (j + 1) * n)))) in *.
      rewrite (zrange_cons j) by lia. cbn [combine mapM].
      destruct (H j m ltac:(lia) ltac:(lia) eq_refl) as [line [El [Ll Vl]]]. rewrite El. cbn [bind].
      destruct (IH (j + 1) ltac:(lia) ltac:(nia)) as [ls [Es [Ls Vs]]]. change (chunks (Z.to_nat (w * n)) (zeros (w * (h - (j + 1) * n)))) with cs in Es. replace (j + 1 + zlen cs) with (j + (1 + zlen cs)) in Es by lia. replace (j + (zlen cs + 1)) with (j + (1 + zlen cs)) by lia. rewrite Es. cbn [bind].
      exists (line :: ls). split; [reflexivity|]. cbn [concat]. rewrite zlen_app, Ll, Ls. assert (Hm : w * (h - j * n) = w * m + Z.max 0 (w * (h - (j + 1) * n))) by (unfold m; nia).
      split; [nia|]. intros k Hk. destruct (Z.lt_ge_cases k (w * m)) as [K|K].
      + unfold znth. rewrite app_nth1 by (unfold zlen in Ll; lia). apply Vl. lia.
      + unfold znth. rewrite app_nth2 by (unfold zlen in Ll; lia).
        assert (Em : m = n) by (unfold m in *; nia). specialize (Vs (k - w * m) ltac:(nia)). unfold znth in Vs.
        replace (Z.to_nat k - length line)%nat with (Z.to_nat (k - w * m)) by (unfold zlen in Ll; lia).
        replace (w * (j * n) + k) with (w * ((j + 1) * n) + (k - w * m)) by (rewrite Em; ring). exact Vs. }
  destruct (G (Z.to_nat h) 0 ltac:(lia) ltac:(lia)) as [ls [E [L V]]]. unfold enumerate. replace (h - 0 * n) with h in * by lia. cbn [Z.add] in E. rewrite E. cbn [bind].
  exists (concat ls). split; [reflexivity|split; [nia|]]. intros k Hk. specialize (V k Hk). replace (w * (0 * n) + k) with k in V by lia. exact V.
Qed.

Ltac Zify.zify_post_hook ::= idtac.
Section Any.
Context {M : Mode}.
Lemma jpeg_read : forall n w h pic stored, holds_jpeg debug n w h pic stored -> Z.of_nat (length stored) + 16 < 2 ^ 32 ->
  exists lj, ljpeg_new (stored ++ zeros 16) = Ok lj /\ lj_width lj = n * w /\ lj_height lj = h /\ 2 <= n <= 4 /\ 0 < w /\ 0 < h /\
    forall out x stride w' h', 0 < w' <= w -> 0 < h' <= h -> 0 <= x -> x + n * w' <= stride ->
      (h' - 1) * stride + x + n * w' <= Z.of_nat (length out) -> (n = 4 -> x = 0 /\ stride = n * w') ->
      exists out', ljpeg_decode lj out x stride (n * w') h' = Ok out' /\ pasted n x stride w' h' pic out out'.
Proof.
  intros n w h pic stored (hs & prec & ids & tables & pt & data & tail & filler & E & En & H1 & H2 & H3 & H4 & H5 & H6 & H7 & H8 & H9 & H10 & H11 & H12 & H13 & H14 & H15) Hl.
  assert (Ez : stored ++ zeros 16 = jpeg_file hs prec w h ids tables pt data (tail ++ zeros 16)) by (rewrite E; unfold jpeg_file; rewrite <- !app_assoc; reflexivity).
  assert (Lz : length (zeros 16) = 16%nat) by reflexivity.
  destruct (Props_Ljpeg.C20_round_trip hs prec w h ids tables pt data (tail ++ zeros 16) false false pic filler) as (lj & L1 & L2 & L3 & L4); rewrite <- ?En; try assumption; try discriminate.
  - apply Forall_app. split; [exact H12|apply zeros_bytes].
  - change (217 :: tail ++ zeros 16) with ((217 :: tail) ++ zeros 16). change (zeros 16) with (repeat 0 15 ++ [0]). rewrite app_assoc, last_last. discriminate.
  - rewrite !app_length, Lz. rewrite E in Hl. unfold jpeg_file in Hl. rewrite !app_length in Hl. lia.
  - rewrite <- En in *. exists lj. unfold ljpeg_new. rewrite Ez. repeat (split; [assumption || lia|]). exact L4.
Qed.

(** ** Tiles *)
Lemma cell_inj : forall w r k r' k', 0 <= k < w -> 0 <= k' < w -> r * w + k = r' * w + k' -> r = r' /\ k = k'.
Proof. intros w r k r' k' Hk Hk' E. assert (r = r') by nia. subst r'. split; [reflexivity|lia]. Qed.
Lemma tile_pasted : forall n x w w' m pic q c strip out', 0 < n -> 0 <= x -> 0 <= w' -> x + n * w' <= w -> c = x + n * w' ->
  pasted n x w w' m pic strip out' -> (forall r k, 0 <= r < m -> 0 <= k < n * w' -> flat n pic r k = q r (x + k)) ->
  (forall r k, 0 <= r < m -> 0 <= k < x -> nth (Z.to_nat (r * w + k)) strip 0 = q r k) ->
  forall r k, 0 <= r < m -> 0 <= k < c -> nth (Z.to_nat (r * w + k)) out' 0 = q r k.
Proof.
  intros n x w w' m pic q c strip out' Hn Hx Hw' Hb -> (_ & P1 & P2) Hq Hold r k Hr Hk.
  destruct (Z.lt_ge_cases k x) as [L|L].
  - rewrite P2; [apply Hold; lia|]. intros r' c' Hr' Hc' E. rewrite Z2Nat.id in E by nia.
    destruct (cell_inj w r k r' (x + c')); lia.
  - pose proof (Z.div_mod (k - x) n ltac:(lia)) as D. pose proof (Z.mod_pos_bound (k - x) n Hn) as B.
    assert (0 <= (k - x) / n < w') by nia.
    replace (q r k) with (q r (x + (k - x))) by (f_equal; lia). rewrite <- (Hq r (k - x)) by lia. unfold flat. rewrite <- (P1 r ((k - x) / n) ((k - x) mod n)) by lia.
    f_equal. f_equal. lia.
Qed.

(** What is in the file is in the buffer. *)
Lemma buffer_from : forall file offset stored, from_offset file offset stored -> slice_from (buffer_new file) offset = Ok (stored ++ zeros 16).
Proof.
  intros file offset stored [H1 H2]. unfold buffer_new. rewrite slice_from_ok by (unfold zlen; rewrite app_length; lia).
  rewrite skipn_app, H2. replace (Z.to_nat offset - length file)%nat with 0%nat by lia. reflexivity.
Qed.
Lemma from_length : forall file offset stored, from_offset file offset stored -> (length stored <= length file)%nat.
Proof. intros file offset stored [_ <-]. rewrite skipn_length. lia. Qed.

Lemma tile_start : forall s t k, 0 < t -> 0 <= k < tiles s t -> k * t <= s - 1.
Proof. intros s t k Ht Hk. unfold tiles in Hk. pose proof (Z.mul_div_le (s - 1) t Ht). nia. Qed.
Lemma tile_index : forall R C r c, 0 <= r < R -> 0 <= c < C -> 0 <= r * C + c < C * R.
Proof. intros. nia. Qed.
Lemma tile_part : forall n tw w tc, 2 <= n -> 0 < tw -> 0 <= tc -> tc * tw <= w - 1 -> w mod n = 0 -> tw mod n = 0 ->
  let bw := Z.min w ((tc + 1) * tw) - tc * tw in bw = n * (bw / n) /\ 0 < bw / n /\ tc * tw + bw = Z.min w ((tc + 1) * tw) /\ 0 <= tc * tw.
Proof.
  intros n tw w tc Hn Ht Hc Hb Nw Nt bw.
  assert (Nb : bw mod n = 0).
  { assert (Nc : tc * tw mod n = 0) by (rewrite Z.mul_mod, Nt, Z.mul_0_r by lia; apply Z.mod_0_l; lia).
    unfold bw. destruct (Z.min_spec w ((tc + 1) * tw)) as [[_ ->]|[_ ->]].
    - rewrite Zminus_mod, Nw, Nc. apply Z.mod_0_l. lia.
    - replace ((tc + 1) * tw - tc * tw) with tw by ring. exact Nt. }
  assert (Eb : bw = n * (bw / n)) by (apply Z.div_exact; [lia|exact Nb]). split; [exact Eb|].
  assert (0 < bw) by (unfold bw; lia). split; [clear - H Eb Hn; nia|]. split; [unfold bw; lia|clear - Ht Hc; nia].
Qed.
Lemma tile_room : forall m w e, 0 < m -> e <= w -> (m - 1) * w + e <= w * m.
Proof. intros. nia. Qed.

Variables (n tw tl w h : Z) (pic : Z -> Z -> Z) (file : list Z) (offs : list Z) (offsets : Tiff.entry).
Hypothesis Hsize : Z.of_nat (length file) + 16 < 2 ^ 32.
Hypothesis Hoffs : forall k v, nth_error offs k = Some v -> get_u32 offsets (Z.of_nat k) = Ok v.
Hypothesis Hn : Z.of_nat (length offs) = tiles w tw * tiles h tl.
Hypothesis Hw : 0 < w < 2 ^ 64.
Hypothesis Hh : 0 < h < 2 ^ 64.
Hypothesis Htw : 0 < tw.
Hypothesis Htl : 0 < tl.
Hypothesis Nw : w mod n = 0.
Hypothesis Nt : tw mod n = 0.
Hypothesis H4 : n = 4 -> w <= tw.
Hypothesis Htiles : forall tr tc, 0 <= tr < tiles h tl -> 0 <= tc < tiles w tw -> exists stored jw jh tile,
  from_offset file (nth (Z.to_nat (tr * tiles w tw + tc)) offs 0) stored /\ holds_jpeg debug n jw jh tile stored /\
  tile_shows n tw tl w h pic tr tc jw jh tile.

Lemma tile_decoded : forall tr tc m strip, 0 <= tr < tiles h tl -> 0 <= tc < tiles w tw -> m = Z.min tl (h - tr * tl) ->
  Z.of_nat (length strip) = w * m ->
  (forall r k, 0 <= r < m -> 0 <= k < tc * tw -> nth (Z.to_nat (r * w + k)) strip 0 = pic (tr * tl + r) k) ->
  exists out, dng_tile (buffer_new file) offsets w h tw tl (tiles w tw) tr tc strip = Ok out /\ length out = length strip /\
    forall r k, 0 <= r < m -> 0 <= k < Z.min w ((tc + 1) * tw) -> nth (Z.to_nat (r * w + k)) out 0 = pic (tr * tl + r) k.
Proof.
  intros tr tc m strip Htr Htc Hm Hlen Hold.
  pose proof (tile_start w tw tc Htw Htc) as Bc. pose proof (tile_start h tl tr Htl Htr) as Br.
  destruct (Htiles tr tc Htr Htc) as (stored & jw & jh & tile & F & J & (S1 & S2 & S3)).
  pose proof (from_length _ _ _ F) as Lf. assert (Ls : Z.of_nat (length stored) + 16 < 2 ^ 32) by (clear - Lf Hsize; lia).
  destruct (jpeg_read n jw jh tile stored J Ls) as (lj & L1 & L2 & L3 & L4 & L5 & L6 & L7).
  pose proof (tile_index _ _ _ _ Htr Htc) as Hi. rewrite <- Hn in Hi.
  destruct (nth_error offs (Z.to_nat (tr * tiles w tw + tc))) as [off|] eqn:Eo; [|apply nth_error_None in Eo; clear - Hi Eo; lia].
  pose proof (Hoffs _ _ Eo) as Go. rewrite Z2Nat.id in Go by apply Hi. rewrite (nth_error_nth _ _ 0 Eo) in F.
  unfold dng_tile. rewrite Go. cbn [bind]. rewrite (buffer_from _ _ _ F). cbn [bind]. rewrite L1. cbn [unwrap bind].
  destruct (tile_part n tw w tc (proj1 L4) Htw (proj1 Htc) Bc Nw Nt) as (Eb & Bn & Be & B0).
  assert (Emr : Z.min h ((tr + 1) * tl) - tr * tl = m) by (clear - Hm; lia).
  assert (Bm : 0 < m) by (clear - Hm Br Htl; lia).
  assert (B0' : 0 <= tr * tl) by (clear - Htr Htl; nia).
  set (bw := Z.min w ((tc + 1) * tw) - tc * tw) in *.
  rewrite (usub_ok (Z.min w _)) by (clear - Be B0 Bn Eb L4 Hw; nia). cbn [bind]. fold bw. rewrite (usub_ok (Z.min h _)) by (clear - Emr Bm B0' Hh; lia). cbn [bind]. rewrite Emr in *.
  assert (Bj : bw / n <= jw) by (clear - Eb S1 L4; nia).
  assert (Bx : tc * tw + n * (bw / n) <= w) by (rewrite <- Eb, Be; clear; lia).
  destruct (L7 strip (tc * tw) w (bw / n) m) as (out & O1 & O2).
  - split; assumption.
  - split; assumption.
  - exact B0.
  - exact Bx.
  - rewrite Hlen, <- Z.add_assoc. apply tile_room; assumption.
  - intros E4. specialize (H4 E4). assert (T0 : tc = 0) by (clear - H4 Bc Htw Htc Hw; nia). clear - T0 Eb Be H4 Htw. subst tc. rewrite <- Eb. lia.
  - rewrite <- Eb in O1. rewrite O1. cbn [unwrap]. exists out. split; [reflexivity|]. split; [apply O2|].
    intros r k Hr Hk. apply (tile_pasted n (tc * tw) w (bw / n) m tile (fun r k => pic (tr * tl + r) k) (Z.min w ((tc + 1) * tw)) strip).
    + clear - L4. lia.
    + exact B0.
    + clear - Bn. lia.
    + exact Bx.
    + rewrite <- Eb, Be. reflexivity.
    + exact O2.
    + intros r' k' Hr' Hk'. rewrite <- Eb in Hk'. apply S3; assumption.
    + exact Hold.
    + exact Hr.
    + exact Hk.
Qed.
Lemma tiles_row : forall tr m, 0 <= tr < tiles h tl -> m = Z.min tl (h - tr * tl) ->
  exists out, rfold (fun col => dng_tile (buffer_new file) offsets w h tw tl (tiles w tw) tr col) (zrange 0 (tiles w tw)) (zeros (w * m)) = Ok out /\ zlen out = w * m /\
    forall r k, 0 <= r < m -> 0 <= k < w -> nth (Z.to_nat (r * w + k)) out 0 = pic (tr * tl + r) k.
Proof.
  intros tr m Htr Hm. pose proof (tile_start h tl tr Htl Htr) as Br.
  assert (Ht : 0 < tiles w tw) by (unfold tiles; pose proof (Z.div_pos (w - 1) tw ltac:(clear - Hw; lia) Htw); lia).
  assert (Bm : 0 < m) by (clear - Hm Br Htl; lia).
  assert (G : forall q c strip, 0 <= c -> c + Z.of_nat q = tiles w tw -> Z.of_nat (length strip) = w * m ->
    (forall r k, 0 <= r < m -> 0 <= k < Z.min w (c * tw) -> nth (Z.to_nat (r * w + k)) strip 0 = pic (tr * tl + r) k) ->
    exists out, rfold (fun col => dng_tile (buffer_new file) offsets w h tw tl (tiles w tw) tr col) (zrange c (tiles w tw)) strip = Ok out /\ zlen out = w * m /\
      forall r k, 0 <= r < m -> 0 <= k < w -> nth (Z.to_nat (r * w + k)) out 0 = pic (tr * tl + r) k).
  { induction q as [|q IH]; intros c strip Hc Hq Hl Hold.
    - rewrite zrange_empty by (clear - Hq; lia). exists strip. split; [reflexivity|]. split; [exact Hl|]. intros r k Hr Hk. apply Hold; [exact Hr|].
      assert (w <= c * tw); [|clear - H Hk; lia]. replace c with (tiles w tw) by (clear - Hq; lia). unfold tiles.
      pose proof (Z.div_mod (w - 1) tw ltac:(clear - Htw; lia)) as D. pose proof (Z.mod_pos_bound (w - 1) tw Htw) as B. clear - D B. lia.
    - rewrite zrange_cons by (clear - Hq; lia). cbn [rfold].
      assert (Hct : 0 <= c < tiles w tw) by (clear - Hq Hc; lia). pose proof (tile_start w tw c Htw Hct) as Bc.
      destruct (tile_decoded tr c m strip Htr Hct Hm Hl) as (out & O1 & O2 & O3).
      { intros r k Hr Hk. apply Hold; [exact Hr|clear - Hk Bc; lia]. }
      rewrite O1. cbn [bind]. apply IH; [clear - Hc; lia|clear - Hq; lia|rewrite O2; exact Hl|exact O3]. }
  apply (G (Z.to_nat (tiles w tw)) 0); [clear; lia|clear - Ht; lia| |].
  - unfold zeros. rewrite repeat_length. clear - Hw Bm. nia.
  - intros r k _ Hk. clear - Hk. lia.
Qed.
Lemma tiles_decoded : exists out, decode_threaded_multiline w h tl (fun strip row =>
    rfold (fun col => dng_tile (buffer_new file) offsets w h tw tl (tiles w tw) (row / tl) col) (zrange 0 (tiles w tw)) strip) = Ok out /\ is_image out w h pic.
Proof.
  assert (Hw0 : 0 < w) by apply Hw. assert (Hh0 : 0 <= h) by (clear - Hh; lia).
  destruct (multiline_parts w h tl (fun strip row => rfold (fun col => dng_tile (buffer_new file) offsets w h tw tl (tiles w tw) (row / tl) col) (zrange 0 (tiles w tw)) strip)
    (fun k x => x = pic (k / w) (k mod w)) Hw0 Hh0 Htl) as (out & O1 & O2 & O3).
  - intros j m Hj Hjh Hm. rewrite Z.div_mul by (clear - Htl; lia).
    assert (Hj' : 0 <= j < tiles h tl) by (unfold tiles; assert (j <= (h - 1) / tl) by (apply Z.div_le_lower_bound; clear - Hjh Htl; lia); clear - Hj H; lia).
    destruct (tiles_row j m Hj' Hm) as (line & T1 & T2 & T3). exists line. split; [exact T1|]. split; [exact T2|].
    clear - T3 Hw0. intros c Hc. pose proof (Z.div_mod c w ltac:(lia)) as D. pose proof (Z.mod_pos_bound c w ltac:(lia)) as B.
    assert (0 <= c / w < m) by (split; [apply Z.div_pos; lia|apply Z.div_lt_upper_bound; lia]).
    unfold znth. replace (Z.to_nat c) with (Z.to_nat (c / w * w + c mod w)) by (f_equal; lia). rewrite T3 by lia.
    replace (w * (j * tl) + c) with (c + (j * tl) * w) by ring. rewrite Z.div_add, Z.mod_add by lia. f_equal. lia.
  - exists out. split; [exact O1|]. split; [exact O2|]. clear - O3 Hw0 Hh0. intros r c Hr Hc. specialize (O3 (r * w + c) ltac:(nia)). cbv beta in O3. unfold znth in O3. rewrite O3.
    rewrite Z.div_add_l, Z.div_small by lia. replace (r * w + c) with (c + r * w) by ring. rewrite Z.mod_add, Z.mod_small by lia. f_equal. lia.
Qed.
End Any.
