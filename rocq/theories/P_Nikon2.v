(** Nikon's second codes (C47): differences whose leaf is not a length. *)
From Coq Require Import String ZArith List Bool Lia ZifyBool ZifyNat.
From Verif Require Import Base Bytes Pumps Huffman Packed Tiff Decoder Dec_Pred Dec_Nef Spec_Bits Spec_Pump Spec_Stream Spec_Image Spec_Huffman Spec_Curve Spec_Ljpeg Spec_Pred Spec_Nikon
  P_Base P_Bits P_Pumps P_Huff1 P_Huff2 P_Huff4 P_Huff5 P_Ljpeg1 P_Pred1 P_Pred7 P_Pred8 P_Pred9.
Import ListNotations.
Local Open Scope Z_scope.

(** The window of eight bits starts with a word whose leaf is 33 or more *)
Definition leafy (nb : list Z) (c : Z) : bool := let v := znth nb c in (1 <=? Z.land v 15) && (Z.land v 15 <=? 8) && (33 <=? Z.shiftr v 4) && (Z.shiftr v 4 <? 255).
Definition leaf_from (n : Z) : Z := if n =? 1 then 0 else 64.
Definition leaf_to (n : Z) : Z := if n =? 1 then 160 else 192.

Lemma bind_inv : forall {A B} (x : res A) (f : A -> res B) y, bind x f = Ok y -> exists a, x = Ok a /\ f a = Ok y.
Proof. intros A B [a| | |] f y H; try discriminate H. exists a. split; [reflexivity|exact H]. Qed.

Definition tree_numbits (tree : list Z) : res (list Z) :=
  counts <- slice tree 0 16 ;;
  let acc := fold_right Z.add 0 counts in
  vals <- slice tree 16 (16 + acc) ;;
  '(hs, lastp) <- huff_sizes (0 :: counts) ;;
  hs <- upd hs lastp 0 ;;
  hc <- huff_codes (M := true) hs ;;
  huff_numbits (M := true) hs hc (vals ++ zeros (256 - acc)) lastp (zeros 256).
Definition second_numbits (n : Z) : res (list Z) := tree <- get nikon_tree n ;; tree_numbits tree.
Lemma second_leafy : forall n nb, n = 1 \/ n = 4 -> second_numbits n = Ok nb -> zlen nb = 256 /\ forall c, leaf_from n <= c < leaf_to n -> leafy nb c = true.
Proof.
  assert (K : forall n, n = 1 \/ n = 4 -> match second_numbits n with Ok nb => (zlen nb =? 256) && forallb (leafy nb) (zrange (leaf_from n) (leaf_to n)) | _ => true end = true).
  { intros n [-> | ->]; vm_compute; reflexivity. }
  intros n nb Hn E. specialize (K n Hn). rewrite E in K. apply andb_prop in K. destruct K as [K1 K2]. split; [lia|].
  intros c Hc. rewrite forallb_forall in K2. apply K2. apply zrange_In. exact Hc.
Qed.

Lemma second_parts : forall n bps t, nef_hufftable (M := true) n bps = Ok t -> exists nb big, second_numbits n = Ok nb /\ hnumbits t = nb /\ hbig t = big /\ huse_big t = true /\
  exists t1, hnumbits t1 = nb /\ huff_bigtable (M := true) t1 = Ok big.
Proof.
  intros n bps t H. unfold nef_hufftable, tree_table in H. unfold second_numbits, tree_numbits.
  apply bind_inv in H. destruct H as [tree [E1 H]]. rewrite E1. cbn [bind].
  apply bind_inv in H. destruct H as [counts [E2 H]]. rewrite E2. cbn [bind]. cbv zeta in H |- *.
  apply bind_inv in H. destruct H as [vals [E3 H]]. rewrite E3. cbn [bind].
  unfold huff_new, huff_initialize in H. cbn [hbits hval hvalptr hmin hmax hnumbits hbig hprec huse_big hdng hinit] in H.
  apply bind_inv in H. destruct H as [[hs lastp] [E4 H]]. rewrite E4. cbn [bind].
  apply bind_inv in H. destruct H as [hs' [E5 H]]. rewrite E5. cbn [bind].
  apply bind_inv in H. destruct H as [hc [E6 H]]. rewrite E6. cbn [bind].
  apply bind_inv in H. destruct H as [[[vp mn] mx] [E7 H]].
  apply bind_inv in H. destruct H as [nb [E8 H]]. rewrite E8.
  cbv iota in H. apply bind_inv in H. destruct H as [big [E9 H]]. injection H as <-.
  exists nb, big. repeat (split; [reflexivity|]). eexists. split; [|exact E9]. reflexivity.
Qed.

Lemma leafy_big : forall t1 i v, 0 <= i < 8192 -> zlen (hnumbits t1) = 256 -> leafy (hnumbits t1) (i / 32) = true -> big_entry (M := true) t1 i = Ok v -> v = 255.
Proof.
  intros t1 i v Hi L Hl H. unfold big_entry in H. cbv zeta in H.
  replace (as_u16 (Z.shiftl i 3)) with (8 * i) in H by (unfold as_u16; rewrite Z.shiftl_mul_pow2 by lia; change (2 ^ 3) with 8; change (2 ^ 16) with 65536; rewrite Z.mod_small by lia; lia).
  replace (Z.shiftr (8 * i) 8) with (i / 32) in H.
  2:{ rewrite Z.shiftr_div_pow2 by lia. change (2 ^ 8) with (8 * 32). rewrite Z.div_mul_cancel_l by lia. reflexivity. }
  assert (Hq : 0 <= i / 32 < 256) by (split; [apply Z.div_pos; lia|apply Z.div_lt_upper_bound; lia]).
  rewrite get_ok in H by lia. cbn [bind] in H. unfold leafy in Hl. cbv zeta in Hl. set (x := znth (hnumbits t1) (i / 32)) in *.
  replace (0 <? Z.land x 15) with true in H by lia. unfold big_value in H.
  replace (as_i32 (Z.shiftr x 4)) with (Z.shiftr x 4) in H.
  2:{ symmetry. apply P_Huff3.as_i32_small. lia. }
  replace (Z.shiftr x 4 =? 16) with false in H by lia. replace (13 <? Z.shiftr x 4 + Z.land x 15) with true in H by lia. injection H as <-. reflexivity.
Qed.

Lemma huge_diff : forall k t p len r, 33 <= len < 255 -> huff_diff (M := true) k t p len <> Ok r.
Proof.
  intros k t p len r Hl. unfold huff_diff. replace (len =? 0) with false by lia. replace (len =? 16) with false by lia.
  destruct (get_bits k p len) as [[v p1]| | |]; cbn [bind]; try discriminate. unfold u32sub. rewrite arith_u_ok by lia. cbn [bind].
  unfold shl_i32, shamt. replace ((0 <=? len - 1) && (len - 1 <? 32)) with false by lia. discriminate.
Qed.

Lemma second_decode : forall n bps t p bs r, n = 1 \/ n = 4 -> nef_hufftable (M := true) n bps = Ok t -> Repr MSB p bs -> (13 <= length bs)%nat ->
  leaf_from n <= number (firstn 8 bs) < leaf_to n -> huff_decode (M := true) MSB t p <> Ok r.
Proof.
  intros n bps t p bs r Hn Ht R L Hc. destruct (second_parts n bps t Ht) as [nb [big [Enb [Hnb [Hbig [Hu [t1 [Ht1 Eb]]]]]]]].
  destruct (second_leafy n nb Hn Enb) as [Lnb Hl].
  unfold huff_decode. rewrite Hu.
  destruct (peek_ok (M := true) MSB p bs 13 R) as [p1 [E1 [R1 _]]]; [lia|lia|]. change (Z.of_nat 13) with 13 in E1. rewrite E1. cbn [bind].
  change (value_of MSB (firstn 13 bs)) with (number (firstn 13 bs)).
  pose proof (number_range (firstn 13 bs)) as Nr. rewrite firstn_length, Nat.min_l in Nr by lia. change (2 ^ Z.of_nat 13) with 8192 in Nr.
  rewrite bigtable_eq in Eb. destruct (mapM_zrange_get _ _ _ (number (firstn 13 bs)) Eb Nr) as [v [G B]]. rewrite Hbig, G. cbn [bind].
  assert (N8 : number (firstn 8 bs) = number (firstn 13 bs) / 32) by (rewrite (number_firstn 8 13) by lia; reflexivity).
  assert (V : v = 255). { apply (leafy_big t1 (number (firstn 13 bs))); [exact Nr|rewrite Ht1; exact Lnb|rewrite Ht1, <- N8; apply Hl; exact Hc|exact B]. }
  subst v. change (negb (Z.land 255 255 =? 255)) with false. cbv iota. unfold huff_slow, huff_len.
  destruct (peek_ok (M := true) MSB p1 bs 8 R1) as [p2 [E2 [R2 _]]]; [lia|lia|]. change (Z.of_nat 8) with 8 in E2. rewrite E2. cbn [bind].
  change (value_of MSB (firstn 8 bs)) with (number (firstn 8 bs)). specialize (Hl _ Hc).
  assert (C8 : 0 <= number (firstn 8 bs) < 256) by (pose proof (number_range (firstn 8 bs)) as Q; rewrite firstn_length, Nat.min_l in Q by lia; exact Q).
  rewrite Hnb, get_ok by lia. cbn [bind]. unfold leafy in Hl. cbv zeta in Hl. set (x := znth nb (number (firstn 8 bs))) in *.
  replace (negb (Z.land x 15 =? 0)) with true by lia. cbv iota.
  destruct (consume_bits MSB p2 (Z.land x 15)) as [p3| | |]; cbn [bind]; try discriminate. apply huge_diff. lia.
Qed.

(** The first row after the change of code starts with such a word. *)
Theorem nikon_change : forall tiff d en e (bits14 : bool) skipped x1 x2 x3 x4 points more curve src w h pic b1 b2 b3 rest out,
  let note := nikon_note e 68 32 skipped x1 x2 x3 x4 points more in
  let start := nikon_start x1 x2 x3 x4 in
  let bps := if bits14 then 14 else 12 in
  let s := nikon_second e 68 32 note in
  fetch_ifd tiff T_NefMeta1 = Ok d -> i_endian d = e ->
  find_entry d T_NefMeta2 = Some en \/ find_entry d T_NefMeta2 = None /\ fetch_tag d T_NefMeta1 = Ok en -> e_data en = note -> bytes note ->
  Z.of_nat (length skipped) = nikon_skipped 68 32 -> sample x1 -> sample x2 -> sample x3 -> sample x4 -> samples points -> Z.of_nat (length points) < 65536 ->
  nikon_curve 68 32 bps points curve -> increasing curve -> not_too_steep curve -> 564 <= Z.of_nat (length note) ->
  0 < s < h -> 0 < w -> Z.even w = true ->
  (forall r c, 0 <= r < s -> 0 <= c < w -> 0 <= pic r c < Z.of_nat (length curve) /\ Z.abs (step_of start pic r c) < 2 ^ bps) ->
  readable MSB src -> stream MSB src 0 = steps_coded (fun _ => code_of (nikon_code bits14 false)) start pic w s ++ b1 :: b2 :: b3 :: rest -> (32 <= length rest)%nat ->
  (if bits14 then 2 <= number [b1; b2; b3] < 6 else number [b1; b2; b3] < 5) ->
  nef_decompress (M := true) tiff src w h bps <> Ok out.
Proof.
  intros tiff d en e a skipped x1 x2 x3 x4 points more curve src w h pic b1 b2 b3 rest out note start bps s
    Ed Ee En Edata Hby Hsk S1 S2 S3 S4 Hp Hpl Hc Ci Cn H564 Hsp Hw He Hs Hrd Es Hr Hn.
  apply Z.even_spec in He. destruct He as [m ->].
  destruct (meta_ok (M := true) e a 68 32 skipped x1 x2 x3 x4 points more curve Hsk S1 S2 S3 S4 Hp Hpl Hc Ci Cn Hby (fun _ _ => H564)) as [Cs [Cl [mt [Em [Esel [Ecur [Eu1 [Eu2 Espl]]]]]]]].
  fold note in Em, Espl. unfold nef_decompress. rewrite Ed. cbn [bind].
  replace (match find_entry d T_NefMeta2 with Some m0 => Ok m0 | None => fetch_tag d T_NefMeta1 end) with (@Ok Tiff.entry en).
  2:{ destruct En as [-> | [-> ->]]; reflexivity. }
  cbn [bind]. rewrite Edata, Ee. change bps with (bits_of a). rewrite Em. cbn [bind].
  destruct (nikon_table (M := true) a false) as [t [Et Ht]].
  destruct (nef_rows_before (M := true) t (code_of (nikon_code a false)) (fun d => -32768 <= d <= 32767 /\ has_word (bits_of a) (nikon_code a false) d)
    m s h start pic curve (number (firstn 24 (stream MSB src 0)))) with (meta := mt) (bps := bits_of a) (src := src) (rest := b1 :: b2 :: b3 :: rest) as [up1 [up2 [p [o [R [U1 [U2 [F E]]]]]]]].
  - exact Ht.
  - exact Cs.
  - exact Ci.
  - exact Cn.
  - lia.
  - intros r c Hr' Hc'. apply Hs; assumption.
  - intros r c _ _. unfold start, nikon_start. destruct (c =? 0), (r =? 0); assumption.
  - intros r c Hr' Hc'. apply nikon_words. apply Hs; assumption.
  - lia.
  - lia.
  - pose proof (number_range (firstn 24 (stream MSB src 0))) as N. pose proof (Z.pow_le_mono_r 2 (Z.of_nat (length (firstn 24 (stream MSB src 0)))) 32 ltac:(lia)) as P.
    specialize (P ltac:(rewrite firstn_length; lia)). lia.
  - rewrite Esel. exact Et.
  - exact Ecur.
  - exact Eu1.
  - exact Eu2.
  - rewrite Espl. fold s. lia.
  - exact Hrd.
  - exact Es.
  - cbn [length]. lia.
  - reflexivity.
  - rewrite E, (zrange_cons s h) by lia. cbn [rfold nef_step].
    rewrite Espl. fold s. replace ((0 <? s) && (s =? s)) with true by lia.
    rewrite Esel. assert (Sel : nikon_select a (68 =? 70) + 1 = if a then 4 else 1) by (destruct a; reflexivity). rewrite Sel.
    destruct (nef_hufftable (M := true) (if a then 4 else 1) (bits_of a)) as [t2| | |] eqn:E2; cbn [bind]; try discriminate.
    rewrite (P_Pred1.land1 s). rewrite (get2_ok _ _ _ _ U1), (get2_ok _ _ _ _ U2) by lia. cbn [bind].
    unfold pair_diff at 1.
    match goal with |- context [huff_decode MSB t2 p] => destruct (huff_decode (M := true) MSB t2 p) as [[v p']| | |] eqn:E3; cbn [bind]; try discriminate end.
    exfalso. apply (second_decode (if a then 4 else 1) (bits_of a) t2 p (b1 :: b2 :: b3 :: rest) (v, p')); [destruct a; lia|exact E2|exact R|cbn [length]; lia| |exact E3].
    assert (N3 : number [b1; b2; b3] = number (firstn 8 (b1 :: b2 :: b3 :: rest)) / 32).
    { change [b1; b2; b3] with (firstn 3 (b1 :: b2 :: b3 :: rest)). rewrite (number_firstn 3 8) by (cbn [length]; lia). reflexivity. }
    pose proof (number_range (firstn 8 (b1 :: b2 :: b3 :: rest))) as Q. unfold leaf_from, leaf_to.
    revert N3 Q. generalize (number (firstn 8 (b1 :: b2 :: b3 :: rest))). intros x N3 Q. rewrite N3 in Hn. clear - Hn Q.
    destruct a; cbn; pose proof (Z.div_mod x 32 ltac:(lia)); pose proof (Z.mod_pos_bound x 32 ltac:(lia)); lia.
Qed.
