(** Proofs about Canon CRW: the low bits, and whole pictures. *)
From Coq Require Import String ZArith List Bool Lia ZifyBool ZifyNat.
From Verif Require Import Base Bytes Pumps Threads Packed Ciff Camera Decoder Dec_Crw Spec_Bits Spec_Stream Spec_Image Spec_Huffman Spec_Ljpeg Spec_Crw
  P_Base P_Bits P_Threads P_Always P_Pumps P_Huff2 P_Huff4 P_Huff5 P_Ljpeg1 P_Ljpeg2 P_Sensor3 P_Pred1 P_Pred6 P_Crw2 P_Crw3.
Import ListNotations.
Local Open Scope Z_scope.
Ltac Zify.zify_post_hook ::= Z.div_mod_to_equations.

Lemma is_image_numbered : forall pic w h, 0 < w -> 0 <= h -> is_image (map (fun k => numbered pic w k) (zrange 0 (w * h))) w h pic.
Proof.
  intros pic w h Hw Hh. split.
  - rewrite map_length, zrange_length. nia.
  - intros r c Hr Hc. assert (0 <= r * w + c < w * h) by nia.
    rewrite nth_indep with (d' := numbered pic w 0) by (rewrite map_length, zrange_length; lia).
    rewrite (map_nth (fun k => numbered pic w k)), zrange_nth by lia. unfold numbered. rewrite Z2Nat.id by lia.
    replace (0 + (r * w + c)) with (c + r * w) by lia. rewrite Z.div_add, Z.mod_add, Z.div_small, Z.mod_small by lia. reflexivity.
Qed.

Section Lows.
Context {M : Mode}.
Variables (pic : Z -> Z -> Z) (w h : Z).
Hypothesis Hw : 0 < w.
Hypothesis Hh : 0 <= h.
Hypothesis Hs : forall r c, 0 <= r < h -> 0 <= c < w -> sample (pic r c).
Hypothesis Hm : (w * h) mod 4 = 0.
Notation P k := (numbered pic w k).
Notation Q k := (numbered (canon_adjusted pic w) w k).

Lemma low_ok : forall v b, sample v -> b mod 4 = v mod 4 -> crw_low w (v / 4) b = Ok (if (w =? 2672) && (v <? 512) then v + 2 else v).
Proof.
  intros v b Hv Hb. unfold sample in Hv. unfold crw_low.
  assert (E : Z.lor (as_u16 (Z.shiftl (v / 4) 2)) (b &&& 3) = v).
  { change 3 with (Z.ones 2). rewrite Z.land_ones by lia. change (2 ^ 2) with 4. rewrite Hb.
    rewrite Z.shiftl_mul_pow2 by lia. unfold as_u16. rewrite Z.mod_small by (change (2 ^ 16) with 65536; change (2 ^ 2) with 4; lia).
    rewrite lor_mul_add by (change (2 ^ 2) with 4; lia). change (2 ^ 2) with 4. lia. }
  rewrite E. cbv zeta. destruct ((w =? 2672) && (v <? 512)) eqn:C; [|reflexivity]. unfold u16add. apply arith_u_ok. change (2 ^ 16) with 65536. lia.
Qed.
Lemma lows_ok : forall buf, 26 + w * h / 4 <= zlen buf -> (forall j, 0 <= j < w * h / 4 -> znth buf (26 + j) = low_bits pic w j) ->
  crw_lows buf w (map (fun k => numbered (high_bits pic) w k) (zrange 0 (w * h))) = Ok (map (fun k => Q k) (zrange 0 (w * h))).
Proof.
  intros buf Hl Hv. assert (N0 : 0 <= w * h) by (apply Z.mul_nonneg_nonneg; lia). set (n := w * h / 4) in *. assert (En : w * h = 4 * n) by lia.
  unfold crw_lows. change 4%nat with (Z.to_nat 4). rewrite (chunks_rows _ 4 n) by (try rewrite zlen_map; try (unfold zlen; rewrite zrange_length); lia).
  assert (E : forall i, 0 <= i < n ->
    (fun '(i, o) => c <- get buf (26 + i) ;;
       o0 <- get o 0 ;; o1 <- get o 1 ;; o2 <- get o 2 ;; o3 <- get o 3 ;;
       mapM (fun '(o, s) => crw_low w o (c >>> s)) [(o0, 0); (o1, 2); (o2, 4); (o3, 6)])
      (i, firstn (Z.to_nat 4) (skipn (Z.to_nat (i * 4)) (map (fun k => numbered (high_bits pic) w k) (zrange 0 (w * h))))) =
    Ok (map (fun k => Q k) (zrange (4 * i) (4 * i + 4)))).
  { intros i Hi. cbv beta iota. rewrite get_ok by lia. rewrite Hv by lia. cbn [bind].
    set (o := firstn _ _). assert (Lo : zlen o = 4). { unfold o. rewrite zlen_firstn, zlen_skipn, zlen_map. unfold zlen. rewrite zrange_length. lia. }
    assert (Vo : forall j, 0 <= j < 4 -> get o j = Ok (P (4 * i + j) / 4)).
    { intros j Hj. rewrite get_ok by lia. f_equal. unfold o. rewrite znth_firstn by lia.
      rewrite znth_skipn by lia. unfold znth. rewrite nth_indep with (d' := numbered (high_bits pic) w 0) by (rewrite map_length, zrange_length; lia).
      rewrite (map_nth (fun k => numbered (high_bits pic) w k)), zrange_nth by lia. unfold numbered, high_bits.
      replace (0 + Z.of_nat (Z.to_nat (i * 4 + j))) with (4 * i + j) by lia. reflexivity. }
    rewrite !Vo by lia. cbn [bind mapM].
    assert (S : forall j, 0 <= j < 4 -> sample (P (4 * i + j))) by (intros j Hj; apply (P_sample pic w h Hw Hs); lia).
    pose proof (S 0 ltac:(lia)) as S0. pose proof (S 1 ltac:(lia)) as S1. pose proof (S 2 ltac:(lia)) as S2. pose proof (S 3 ltac:(lia)) as S3.
    assert (B : forall s j, 0 <= j < 4 -> s = 2 * j -> (low_bits pic w i >>> s) mod 4 = P (4 * i + j) mod 4).
    { intros s j Hj ->. rewrite Z.shiftr_div_pow2 by lia. unfold low_bits. assert (j = 0 \/ j = 1 \/ j = 2 \/ j = 3) as [-> |[-> |[-> | ->]]] by lia.
      - change (2 ^ (2 * 0)) with 1. lia.
      - change (2 ^ (2 * 1)) with 4. lia.
      - change (2 ^ (2 * 2)) with 16. lia.
      - change (2 ^ (2 * 3)) with 64. lia. }
    rewrite (low_ok (P (4 * i + 0))) by (first [assumption|apply B; lia]). cbn [bind].
    rewrite (low_ok (P (4 * i + 1))) by (first [assumption|apply B; lia]). cbn [bind].
    rewrite (low_ok (P (4 * i + 2))) by (first [assumption|apply B; lia]). cbn [bind].
    rewrite (low_ok (P (4 * i + 3))) by (first [assumption|apply B; lia]). cbn [bind].
    rewrite !zrange_cons by lia. rewrite zrange_empty by lia. cbn [map].
    replace (4 * i + 1 + 1) with (4 * i + 2) by lia. replace (4 * i + 2 + 1) with (4 * i + 3) by lia. rewrite Z.add_0_r. reflexivity. }
  rewrite (mapM_map _ (fun '(i, _) => map (fun k => Q k) (zrange (4 * i) (4 * i + 4)))).
  - cbn [bind]. f_equal. rewrite map_map. rewrite En. clear - N0 En.
    assert (G : forall m : nat, concat (map (fun i => map (fun k => Q k) (zrange (4 * i) (4 * i + 4))) (zrange 0 (Z.of_nat m))) = map (fun k => Q k) (zrange 0 (4 * Z.of_nat m))).
    { induction m as [|m IH]; [reflexivity|]. replace (Z.of_nat (S m)) with (Z.of_nat m + 1) by lia. rewrite zrange_snoc by lia. rewrite map_app, concat_app, IH. cbn [map concat]. rewrite app_nil_r.
      rewrite <- map_app. f_equal. rewrite (zrange_split 0 (4 * Z.of_nat m) (4 * (Z.of_nat m + 1))) by lia. do 2 f_equal. lia. }
    specialize (G (Z.to_nat n)). rewrite Z2Nat.id in G by lia. exact G.
  - intros [i o] Hi. apply in_map_iff in Hi. destruct Hi as [j [Ej Hj]]. injection Ej as -> <-. apply zrange_In in Hj. exact (E i ltac:(lia)).
Qed.
End Lows.

Section Whole.
Context {M : Mode}.
Theorem canon_ok : forall buf ciff cam en dt w h pic pad rest, fetch_cifd_tag ciff C_DecoderTable = Ok en -> cget_u32 en 0 = Ok dt -> 0 <= dt <= 2 ->
  find_hint cam "nolowbits" = false ->
  0 < w -> 0 <= h -> (w * h) mod 64 = 0 -> (forall r c, 0 <= r < h -> 0 <= c < w -> sample (pic r c)) -> canon_fits (high_bits pic) w h ->
  540 + w * h / 4 <= Z.of_nat (length buf) -> (forall j, 0 <= j < w * h / 4 -> nth (Z.to_nat (26 + j)) buf 0 = low_bits pic w j) ->
  let data := skipn (Z.to_nat (540 + w * h / 4)) buf in
  readable JPEG data -> stream JPEG data pad = canon_coded dt (high_bits pic) w h ++ rest -> (16 <= length rest)%nat ->
  exists out, crw_decompress buf ciff cam w h = Ok out /\ is_image out w h (canon_adjusted pic w).
Proof.
  intros buf ciff cam en dt w h pic pad rest Ht Ed Hd Hh0 Hw Hh Hm Hs Hf Hl Hlow data Hb Hst Hr.
  assert (N0 : 0 <= w * h) by (apply Z.mul_nonneg_nonneg; lia).
  unfold crw_decompress. rewrite Ht. cbn [bind]. rewrite Ed. cbn [bind]. replace (2 <? dt) with false by lia. cbv zeta. rewrite Hh0. cbn [negb].
  destruct (canon_usable dt Hd) as [_ [_ [A1 A2]]]. destruct (crw_tables_read dt Hd) as [ts [Et [R1 R2]]]. rewrite Et. cbn [bind].
  replace (1 * h * w) with (w * h) by lia. rewrite slice_from_ok by (unfold zlen; lia). cbn [bind]. fold data.
  rewrite (crw_high_ok (high_bits pic) w h Hw Hh) with (dt := dt) (pad := pad) (rest := rest); try assumption; [|apply Hf].
  assert (Hm4 : (w * h) mod 4 = 0) by lia. assert (Hl4 : 26 + w * h / 4 <= zlen buf) by (unfold zlen; lia).
  cbn [bind]. rewrite (lows_ok pic w h Hw Hh Hs Hm4 buf Hl4 Hlow).
  eexists. split; [reflexivity|]. apply is_image_numbered; assumption.
Qed.
Theorem canon_plain_ok : forall buf ciff cam en dt w h pic pad rest, fetch_cifd_tag ciff C_DecoderTable = Ok en -> cget_u32 en 0 = Ok dt -> 0 <= dt <= 2 ->
  find_hint cam "nolowbits" = true ->
  0 < w -> 0 <= h -> (w * h) mod 64 = 0 -> canon_fits pic w h -> 540 <= Z.of_nat (length buf) ->
  let data := skipn 540 buf in
  readable JPEG data -> stream JPEG data pad = canon_coded dt pic w h ++ rest -> (16 <= length rest)%nat ->
  exists out, crw_decompress buf ciff cam w h = Ok out /\ is_image out w h pic.
Proof.
  intros buf ciff cam en dt w h pic pad rest Ht Ed Hd Hh0 Hw Hh Hm Hf Hl data Hb Hst Hr.
  unfold crw_decompress. rewrite Ht. cbn [bind]. rewrite Ed. cbn [bind]. replace (2 <? dt) with false by lia. cbv zeta. rewrite Hh0. cbn [negb].
  destruct (canon_usable dt Hd) as [_ [_ [A1 A2]]]. destruct (crw_tables_read dt Hd) as [ts [Et [R1 R2]]]. rewrite Et. cbn [bind].
  change (0 * h * w / 4) with 0. rewrite slice_from_ok by (unfold zlen; lia). cbn [bind].
  change (skipn (Z.to_nat (540 + 0)) buf) with data.
  rewrite (crw_high_ok pic w h Hw Hh) with (dt := dt) (pad := pad) (rest := rest); try assumption; [|apply Hf].
  cbn [bind]. eexists. split; [reflexivity|]. apply is_image_numbered; assumption.
Qed.

(** A last block that is not full. *)
Lemma last_chunk : forall {A} n (l : list A), (0 < n)%nat -> (length l mod n <> 0)%nat -> exists c, In c (chunks n l) /\ (length c < n)%nat.
Proof.
  intros A n l Hn. remember (length l) as k eqn:E. revert l E. induction k as [k IH] using lt_wf_ind. intros l E Hm.
  assert (l <> []) by (intros ->; cbn in E; subst k; apply Hm; apply Nat.mod_0_l; lia).
  rewrite chunks_cons by assumption. destruct (Nat.lt_ge_cases k n) as [L|L].
  - exists (firstn n l). split; [left; reflexivity|]. rewrite firstn_length. lia.
  - destruct (IH (k - n)%nat ltac:(lia) (skipn n l) ltac:(rewrite skipn_length; lia)) as [c [I C]].
    + replace k with (k - n + 1 * n)%nat in Hm by lia. rewrite Nat.mod_add in Hm by lia. exact Hm.
    + exists c. split; [right; exact I|exact C].
Qed.
Lemma pixels_short : forall w d base n out s, zlen out < 64 -> crw_pixels w d (base, n, out) = Ok s -> False.
Proof.
  intros w d base n out s Hl E. unfold crw_pixels in E. revert E.
  refine (rfold_stuck _ (fun st : list Z * Z * list Z => zlen (snd st) < 64) (zrange 0 64) 63 _ _ _ _ _ _).
  - intros i [[b k] o] s2 _ P E. cbn [snd] in P. destruct (w =? 0); [discriminate E|]. do 5 eb E. injection E as <-. cbn [snd]. rewrite (zlen_upd _ _ _ _ F3). exact P.
  - exact Hl.
  - apply zrange_In. lia.
  - intros [[b k] o] s2 P E. cbn [snd] in P. destruct (w =? 0); [discriminate E|]. do 5 eb E. apply upd_inv in F3. lia.
Qed.
Theorem canon_short : forall buf ciff cam w h out, 0 <= w * h -> (w * h) mod 64 <> 0 -> crw_decompress buf ciff cam w h <> Ok out.
Proof.
  intros buf ciff cam w h out N0 Hm E. unfold crw_decompress in E. do 2 eb E. destruct (2 <? x0); [discriminate E|]. do 3 eb E. clear E. rename F3 into E.
  unfold crw_high in E. eb E. clear E.
  destruct (last_chunk 64 (zeros (w * h)) ltac:(lia)) as [c [I C]].
  { unfold zeros. rewrite repeat_length. lia. }
  revert F3. refine (rfold_stuck _ (fun _ => True) _ c _ _ _ Logic.I I _); [intros; exact Logic.I|].
  intros [[[[p0 ca] b0] n0] dn0] s2 _ E. eb E. eb E. eb E. eb E. eb E. refine (pixels_short _ _ _ _ _ _ _ F7). unfold zlen. lia.
Qed.
End Whole.

Lemma upto_all : forall n f, forallb f (upto n) = true -> forall k, 0 <= k < n -> f k = true.
Proof. intros n f H k Hk. rewrite forallb_forall in H. apply H. apply in_map_iff. exists (Z.to_nat k). split; [lia|]. apply in_seq. lia. Qed.
