(** Proofs about Kodak's DCR files: whole pictures. *)
From Coq Require Import String ZArith List Bool Lia ZifyBool ZifyNat.
From Verif Require Import Base Bytes Pumps Huffman Packed Threads Lookup Dec_Simple Spec_Bits Spec_Pump Spec_Stream Spec_Image Spec_Huffman Spec_Ljpeg Spec_Curve Spec_Nikon Spec_Dcr
  P_Base P_Bits P_Threads P_Lookup P_Huff6 P_Ljpeg1 P_Ljpeg2 P_Ljpeg4 P_Pred1 P_Pred2 P_Pred7 P_Dcr1.
Import ListNotations.
Local Open Scope Z_scope.
Ltac Zify.zify_post_hook ::= Z.div_mod_to_equations.

Lemma enumerate_map : forall (f : Z -> Z) n, 0 <= n -> Threads.enumerate (map f (zrange 0 n)) = map (fun i => (i, f i)) (zrange 0 n).
Proof.
  intros f n Hn. unfold enumerate, zlen. rewrite map_length, zrange_length. replace (Z.of_nat (Z.to_nat (n - 0))) with n by lia.
  induction (zrange 0 n) as [|a l IH]; [reflexivity|]. cbn [map combine]. rewrite IH. reflexivity.
Qed.

Lemma noise_succ : forall first i, 0 <= i -> noise_after (Z.to_nat (i + 1)) first = 15700 * (noise_after (Z.to_nat i) first mod 65536) + noise_after (Z.to_nat i) first / 65536.
Proof. intros first i Hi. replace (Z.to_nat (i + 1)) with (S (Z.to_nat i)) by lia. reflexivity. Qed.

Section Picture.
Context {M : Mode}.
Variables (w h : Z) (pic : Z -> Z -> Z) (curve : list Z) (seg : Z -> Z -> list Z).
Notation tbl := (map (entry curve) (zrange 0 (zlen curve))).
Notation final := (toned_picture curve pic w 0).
Notation noise i := (noise_after (Z.to_nat i) 0).
Hypothesis Hw : 0 < w.
Hypothesis Hh : 0 <= h.
Hypothesis Cs : samples curve.
Hypothesis Ci : increasing curve.
Hypothesis Cn : not_too_steep curve.
Hypothesis Hs : forall r c, 0 <= r < h -> 0 <= c < w -> 0 <= pic r c < zlen curve /\ sample (pic r c).
Hypothesis Hd : forall r k, 0 <= r < h -> 0 <= k < kodak_segments w -> Forall (fun d => Z.abs d < 2 ^ 15) (kodak_differences pic w r k).
Hypothesis Hseg : forall r k, 0 <= r < h -> 0 <= k < kodak_segments w -> kodak_segment (kodak_differences pic w r k) (seg r k).

Lemma pixels_ok : forall r k out, 0 <= r < h -> 0 <= k < kodak_segments w -> Filled w h (r * w + 256 * k) final out ->
  exists out', dcr_pixels tbl (r * w + 256 * k) (kodak_differences pic w r k) (noise (r * w + 256 * k)) out = Ok (noise (r * w + (256 * k + Z.min 256 (w - 256 * k))), out') /\
    Filled w h (r * w + (256 * k + Z.min 256 (w - 256 * k))) final out'.
Proof.
  intros r k out Hr Hk F. unfold kodak_segments in Hk. set (n := Z.min 256 (w - 256 * k)) in *. assert (Hn : 0 < n <= 256) by lia. assert (Hn2 : 256 * k + n <= w) by lia.
  unfold dcr_pixels, kodak_differences. rewrite upto_zrange. fold n. rewrite enumerate_map by lia. rewrite rfold_map. assert (Hrw : 0 <= r * w) by nia.
  set (val := fun i => pic r (256 * k + i) - (if i <? 2 then 0 else pic r (256 * k + i - 2))).
  match goal with |- context [rfold ?f (zrange 0 n) ?st0] => destruct (rfold_zrange f (fun i '(pred, random, out) =>
    (exists a b, pred = [a; b] /\ forall j, i <= j < i + 2 -> (if j mod 2 =? 0 then a else b) = (if j <? 2 then 0 else pic r (256 * k + j - 2))) /\
    random = noise (r * w + (256 * k + i)) /\ Filled w h (r * w + (256 * k + i)) final out) 0 n st0) as [[[pred random] out'] [E [_ [-> F']]]] end.
  - lia.
  - rewrite Z.add_0_r. split; [|split; [reflexivity|exact F]]. exists 0, 0. split; [reflexivity|]. intros j Hj. assert (j = 0 \/ j = 1) as [-> | ->] by lia; reflexivity.
  - intros i [[pred random] o] Hi [[a [b [-> Hp]]] [-> Fo]]. rewrite land1. rewrite (get2_ok [a; b] a b (i mod 2) eq_refl) by lia. cbn [bind].
    rewrite (Hp i) by lia. fold (val i). destruct (Hs r (256 * k + i) Hr ltac:(lia)) as [S1 S2]. unfold sample in S2.
    assert (B : 0 <= (if i <? 2 then 0 else pic r (256 * k + i - 2)) < 65536) by (destruct (i <? 2) eqn:Q; [lia|destruct (Hs r (256 * k + i - 2) Hr ltac:(lia)) as [_ S3]; exact S3]).
    assert (Ev : (if i <? 2 then 0 else pic r (256 * k + i - 2)) + val i = pic r (256 * k + i)) by (unfold val; lia).
    rewrite i32add_ok by (change (2 ^ 31) with 2147483648; lia). cbn [bind]. rewrite Ev. rewrite (upd2_ok [a; b] a b (i mod 2) _ eq_refl) by lia. cbn [bind].
    rewrite as_u16_sample by exact S2. rewrite dither_exact by (first [assumption|apply noise_range; lia]). cbn [bind]. rewrite <- noise_succ by lia.
    replace (r * w + 256 * k + i) with (r * w + (256 * k + i)) by lia.
    destruct (Filled_put w h final o r (256 * k + i) (final r (256 * k + i)) Hr ltac:(lia) eq_refl Fo) as [o1 [E1 F1]]. unfold toned_picture at 1 in E1. rewrite E1. cbn [bind].
    eexists. split; [reflexivity|]. replace (r * w + (256 * k + (i + 1))) with (r * w + (256 * k + i) + 1) by lia. split; [|split; [reflexivity|exact F1]].
    destruct (i mod 2 =? 0) eqn:Q; do 2 eexists; (split; [reflexivity|]); intros j Hj; assert (j = i + 1 \/ j = i + 2) as [-> | ->] by lia.
    + replace ((i + 1) mod 2 =? 0) with false by lia. rewrite <- (Hp (i + 1)) by lia. replace ((i + 1) mod 2 =? 0) with false by lia. reflexivity.
    + replace ((i + 2) mod 2 =? 0) with true by lia. replace (i + 2 <? 2) with false by lia. f_equal. lia.
    + replace ((i + 1) mod 2 =? 0) with true by lia. rewrite <- (Hp (i + 1)) by lia. replace ((i + 1) mod 2 =? 0) with true by lia. reflexivity.
    + replace ((i + 2) mod 2 =? 0) with false by lia. replace (i + 2 <? 2) with false by lia. f_equal. lia.
  - rewrite E. cbn [bind]. exists out'. split; [reflexivity|exact F'].
Qed.

Definition rowsegs (r k : Z) : list Z := flat_map (seg r) (zrange k (kodak_segments w)).
Lemma dcr_row_ok : forall buf e r pos tail out, 0 <= r < h -> At buf pos (rowsegs r 0 ++ tail) -> Filled w h (r * w) final out ->
  exists pos' out', rfold (fun col '(s, random, out) =>
    '(vals, s) <- decode_segment (Z.min 256 (w - col)) s ;;
    '(random, out) <- dcr_pixels tbl (r * w + col) vals random out ;;
    Ok (s, random, out)) (zrange_step 0 w 256) (mkbs buf pos e, noise (r * w), out) = Ok (mkbs buf pos' e, noise ((r + 1) * w), out') /\
    At buf pos' tail /\ Filled w h ((r + 1) * w) final out'.
Proof.
  intros buf e r pos tail out Hr A F. set (n := kodak_segments w) in *. assert (Hn : 0 < n /\ w <= 256 * n < w + 256) by (unfold n, kodak_segments; lia).
  assert (Er : zrange_step 0 w 256 = map (fun j => 256 * j) (zrange 0 n)).
  { unfold zrange_step, zrange. rewrite map_map. replace ((w - 0 + 256 - 1) / 256) with n by (unfold n, kodak_segments; f_equal; lia). rewrite Z.sub_0_r. apply map_ext. intros j. lia. }
  rewrite Er, rfold_map.
  match goal with |- context [rfold ?f (zrange 0 n) ?st0] => destruct (rfold_zrange f (fun k '(s, random, out) => exists pos, s = mkbs buf pos e /\ At buf pos (rowsegs r k ++ tail) /\
    random = noise (r * w + Z.min w (256 * k)) /\ Filled w h (r * w + Z.min w (256 * k)) final out) 0 n st0) as [[[s1 random] out'] [E [p1 [-> [A1 [-> F1]]]]]] end.
  - lia.
  - replace (r * w + Z.min w (256 * 0)) with (r * w) by lia. exists pos. repeat (split; [reflexivity || assumption|]). exact F.
  - intros k [[s1 random] o] Hk [p1 [-> [A1 [-> F1]]]]. replace (Z.min w (256 * k)) with (256 * k) in * by lia.
    unfold rowsegs in A1. fold n in A1. rewrite (zrange_cons k n) in A1 by lia. cbn [flat_map] in A1. rewrite <- app_assoc in A1.
    assert (L : zlen (kodak_differences pic w r k) = Z.min 256 (w - 256 * k)) by (unfold kodak_differences, zlen; rewrite map_length, upto_zrange, zrange_length; lia).
    destruct (segment_ok buf e (kodak_differences pic w r k) (flat_map (seg r) (zrange (k + 1) n) ++ tail)) with (seg := seg r k) (pos := p1) as [p2 [E2 A2]].
    + lia.
    + intros d Hin. apply le_category. pose proof (proj1 (Forall_forall _ _) (Hd r k Hr ltac:(fold n; lia)) d Hin) as Q. exact Q.
    + apply Hseg; [exact Hr|fold n; lia].
    + exact A1.
    + rewrite L in E2. rewrite E2. cbn [bind]. destruct (pixels_ok r k o Hr ltac:(fold n; lia) F1) as [o2 [E3 F3]]. rewrite E3. cbn [bind].
      eexists. split; [reflexivity|]. replace (Z.min w (256 * (k + 1))) with (256 * k + Z.min 256 (w - 256 * k)) by lia.
      exists p2. repeat (split; [reflexivity || assumption|]). exact F3.
  - rewrite E. replace (r * w + Z.min w (256 * n)) with ((r + 1) * w) in * by lia. exists p1, out'. split; [reflexivity|split; [|exact F1]].
    unfold rowsegs in A1. fold n in A1. rewrite (zrange_empty n n) in A1 by lia. exact A1.
Qed.
Lemma dcr_run : forall rest, exists out, decode_kodak65000 (flat_map (fun r => flat_map (seg r) (upto (kodak_segments w))) (upto h) ++ rest) tbl w h = Ok out /\ is_image out w h final.
Proof.
  intros rest. unfold decode_kodak65000. rewrite !upto_zrange. set (buf := flat_map _ _ ++ rest).
  match goal with |- context [rfold ?f (zrange 0 h) ?st0] => destruct (rfold_zrange f (fun r '(s, random, out) => exists pos, s = mkbs buf pos LITTLE_ENDIAN /\ At buf pos (flat_map (fun r => rowsegs r 0) (zrange r h) ++ rest) /\
    random = noise (r * w) /\ Filled w h (r * w) final out) 0 h st0) as [[[s1 random] out'] [E [p1 [_ [_ [_ F1]]]]]] end.
  - exact Hh.
  - exists 0. split; [reflexivity|split; [exists []; split; reflexivity|split; [reflexivity|]]]. apply Filled_0. unfold zeros, zlen. rewrite repeat_length. nia.
  - intros r [[s1 random] o] Hr [p1 [-> [A1 [-> F1]]]]. rewrite (zrange_cons r h) in A1 by lia. cbn [flat_map] in A1. rewrite <- app_assoc in A1.
    destruct (dcr_row_ok buf LITTLE_ENDIAN r p1 _ o Hr A1 F1) as [p2 [o2 [E2 [A2 F2]]]]. rewrite E2. eexists. split; [reflexivity|].
    exists p2. repeat (split; [reflexivity || assumption|]). exact F2.
  - rewrite E. cbn [bind]. exists out'. split; [reflexivity|]. apply Filled_image. replace (w * h) with (h * w) by lia. exact F1.
Qed.
End Picture.

Lemma dcr_ok : forall {M : Mode} w h pic curve seg rest table, 0 < w -> 0 <= h ->
  samples curve -> increasing curve -> not_too_steep curve -> lookup_new curve = Ok table ->
  (forall r c, 0 <= r < h -> 0 <= c < w -> 0 <= pic r c < zlen curve /\ sample (pic r c)) ->
  (forall r k, 0 <= r < h -> 0 <= k < kodak_segments w -> Forall (fun d => Z.abs d < 2 ^ 15) (kodak_differences pic w r k) /\ kodak_segment (kodak_differences pic w r k) (seg r k)) ->
  exists out, decode_kodak65000 (flat_map (fun r => flat_map (seg r) (upto (kodak_segments w))) (upto h) ++ rest) table w h = Ok out /\ is_image out w h (toned_picture curve pic w 0).
Proof.
  intros M w h pic curve seg rest table Hw Hh Cs Ci Cn Ht Hs Hd. rewrite lookup_new_ok in Ht by assumption. injection Ht as <-.
  apply dcr_run; try assumption; intros r k Hr Hk; apply Hd; assumption.
Qed.
Lemma lookup_new_ok' : forall {M : Mode} curve, samples curve -> increasing curve -> not_too_steep curve -> exists table, lookup_new curve = Ok table.
Proof. intros M curve Cs Ci Cn. eexists. apply lookup_new_ok; assumption. Qed.
