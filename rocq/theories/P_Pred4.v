(** Proofs about predictive formats: reading the code table of a Pentax file. *)
From Coq Require Import String ZArith List Bool Lia ZifyBool ZifyNat Permutation.
From Verif Require Import Base Bytes Pumps Huffman Packed Tiff Decoder Dec_Pred Spec_Bits Spec_Pump Spec_Stream Spec_Image Spec_Huffman Spec_Ljpeg Spec_Pred
  P_Base P_Bits P_Pumps P_Huff1 P_Huff4 P_Huff5 P_Huff6 P_Ljpeg1 P_Ljpeg2 P_Ljpeg4 P_Pred1 P_Pred2 P_Pred3.
Import ListNotations.
Local Open Scope Z_scope.
Ltac Zify.zify_post_hook ::= Z.div_mod_to_equations.

Lemma list_znth_ext : forall (a b : list Z), zlen a = zlen b -> (forall i, 0 <= i < zlen a -> znth a i = znth b i) -> a = b.
Proof.
  intros a b L H. apply (nth_ext _ _ 0 0); [unfold zlen in L; lia|]. intros n Hn.
  specialize (H (Z.of_nat n) ltac:(unfold zlen; lia)). unfold znth in H. rewrite Nat2Z.id in H. exact H.
Qed.

(** Reading [n] numbers into an array. *)
Section Read.
Variables (get1 : bstream -> res (Z * bstream)) (e : endian) (size : Z) (enc : Z -> list Z) (f : Z -> Z) (n : Z).
Hypothesis Hget : forall buf pos i s, 0 <= i < n -> At buf pos (enc (f i) ++ s) ->
  get1 (mkbs buf pos e) = Ok (f i, mkbs buf (pos + size) e) /\ At buf (pos + size) s.
Lemma read_array : forall buf pos s v, 0 <= n <= zlen v -> At buf pos (flat_map (fun i => enc (f i)) (zrange 0 n) ++ s) ->
  exists v' pos', rfold (fun i '(v, s) => '(x, s) <- get1 s ;; v <- upd v i x ;; Ok (v, s)) (zrange 0 n) (v, mkbs buf pos e) = Ok (v', mkbs buf pos' e) /\
    zlen v' = zlen v /\ (forall i, 0 <= i < n -> znth v' i = f i) /\ At buf pos' s.
Proof.
  intros buf pos s v Hn HA.
  match goal with |- context [rfold ?g (zrange 0 n) ?st] => destruct (rfold_zrange g (fun i '(v', b) => exists pos', b = mkbs buf pos' e /\ zlen v' = zlen v /\
      (forall j, 0 <= j < i -> znth v' j = f j) /\ At buf pos' (flat_map (fun i => enc (f i)) (zrange i n) ++ s)) 0 n st) as [[v' b'] [E [pos' [Eb [L [V A]]]]]] end.
  - lia.
  - exists pos. split; [reflexivity|]. split; [reflexivity|]. split; [intros; lia|exact HA].
  - intros i [v1 b1] Hi [pos1 [-> [L1 [V1 A1]]]]. rewrite (zrange_cons i) in A1 by lia. cbn [flat_map] in A1. rewrite <- app_assoc in A1.
    destruct (Hget buf pos1 i _ Hi A1) as [E1 A2]. rewrite E1. cbn [bind]. rewrite upd_ok by lia. cbn [bind]. eexists. split; [reflexivity|]. cbv beta iota.
    exists (pos1 + size). split; [reflexivity|]. split; [rewrite zlen_upd_nat; exact L1|]. split; [|exact A2].
    intros j Hj. rewrite znth_upd_nat by lia. destruct (j =? i) eqn:Q; [f_equal; lia|apply V1; lia].
  - subst b'. exists v', pos'. rewrite zrange_empty in A by lia. split; [exact E|]. split; [exact L|]. split; [exact V|exact A].
Qed.
End Read.

Section Note.
Context {M : Mode}.
Variables (h : hcode) (depth : Z).
Hypothesis Ht : pentax_table h depth.
Hypothesis Hd : 0 <= depth <= 15.
Notation syms := (hc_syms h).
Notation counts := (hc_counts h).
Notation ls := (lengths (hc_counts h)).
Local Notation pos c := (category_word h (Z.to_nat c)).

Lemma code_loop : forall v0 v1, zlen v0 = 16 -> zlen v1 = 16 ->
  (forall c, 0 <= c < depth -> znth v0 c = word_value h c * 2 ^ (12 - Z.of_nat (word_length h c))) ->
  (forall c, 0 <= c < depth -> znth v1 c = Z.of_nat (word_length h c)) ->
  exists v2 bits, rfold (pef_code v0 v1) (zrange 0 depth) (zeros 16, zeros 17) = Ok (v2, bits) /\ zlen v2 = 16 /\
    (forall c, 0 <= c < depth -> znth v2 c = word_value h c) /\ bits = 0 :: counts.
Proof.
  intros v0 v1 L0 L1 V0 V1.
  destruct (rfold_zrange (pef_code v0 v1) (fun i '(v2, bits) => zlen v2 = 16 /\ zlen bits = 17 /\
      (forall c, 0 <= c < i -> znth v2 c = word_value h c) /\ (forall n, 0 <= n < 17 -> znth bits n = tally h i (Z.to_nat n))) 0 depth (zeros 16, zeros 17))
    as [[v2 bits] [E [L2 [Lb [V2 Vb]]]]].
  - lia.
  - split; [reflexivity|]. split; [reflexivity|]. split; [intros; lia|]. intros n Hn. unfold tally. change (upto 0) with (@nil Z). cbn [map count_occ].
    unfold zeros. rewrite znth_repeat by lia. reflexivity.
  - intros i [v2 bits] Hi [L2 [Lb [V2 Vb]]]. unfold pef_code. rewrite !get_ok by lia. cbn [bind]. rewrite V0, V1 by lia.
    pose proof (length_le h depth Ht i) as Ll. destruct (value_12 h depth Ht i Hi) as [R1 R2].
    assert (T : tally h i (word_length h i) <= i).
    { unfold tally. pose proof (count_occ_bound Nat.eq_dec (word_length h i) (map (word_length h) (upto i))) as B. rewrite map_length in B.
      assert (length (upto i) = Z.to_nat i) by (unfold upto; rewrite map_length, seq_length; reflexivity). lia. }
    unfold u32sub at 1. rewrite arith_u_ok by lia. cbn [bind]. unfold shr_u, shamt. replace ((0 <=? 12 - Z.of_nat (word_length h i)) && (12 - Z.of_nat (word_length h i) <? 32)) with true by lia.
    cbn [bind]. rewrite Z.shiftr_div_pow2, R2 by lia. rewrite upd_ok by lia. cbn [bind]. rewrite get_ok by lia. cbn [bind].
    rewrite Vb by lia. rewrite Nat2Z.id. assert (0 <= tally h i (word_length h i)) by (unfold tally; lia).
    unfold u32add. rewrite arith_u_ok by lia. cbn [bind]. rewrite upd_ok by lia. cbn [bind]. eexists. split; [reflexivity|]. cbv beta iota.
    rewrite !zlen_upd_nat. split; [exact L2|]. split; [exact Lb|]. split.
    + intros c Hc. rewrite znth_upd_nat by lia. destruct (c =? i) eqn:Q; [f_equal; lia|apply V2; lia].
    + intros n Hn. rewrite znth_upd_nat by lia. rewrite tally_step by lia. destruct (n =? Z.of_nat (word_length h i)) eqn:Q.
      * replace (Z.to_nat n) with (word_length h i) by lia. rewrite Nat.eqb_refl. reflexivity.
      * replace (word_length h i =? Z.to_nat n)%nat with false by lia. rewrite Vb by lia. lia.
  - exists v2, bits. split; [exact E|]. split; [exact L2|]. split; [exact V2|].
    destruct Ht as [[C1 _] _]. apply list_znth_ext; [rewrite Lb, zlen_cons; unfold zlen; rewrite C1; reflexivity|].
    intros i Hi. rewrite Vb by lia. rewrite (tally_all h depth Ht) by lia. reflexivity.
Qed.

(** The smallest value left is that of the next symbol. *)
Lemma scan_ok : forall v2 i, (i < length ls)%nat -> zlen v2 = 16 ->
  (forall c, 0 <= c < depth -> znth v2 c = if (pos c <? i)%nat then 0xffffffff else word_value h c) ->
  exists x, rfold (fun j '(sm_val, sm_num) => v <- get v2 j ;; Ok (if v <=? sm_val then (v, j) else (sm_val, sm_num)))
    (zrange 0 depth) (0xfffffff, 0xff) = Ok (x, nth i syms 0).
Proof.
  intros v2 i Hi L V. set (s := nth i syms 0). pose proof (sym_range h depth Ht i Hi) as Rs. fold s in Rs. pose proof (pos_sym h depth Ht i Hi) as Ps. fold s in Ps.
  assert (Bs : forall c, 0 <= c < depth -> 0 <= word_value h c < 4096).
  { intros c Hc. pose proof (value_range h depth Ht c Hc) as R. pose proof (length_le h depth Ht c) as Lc.
    assert (2 ^ Z.of_nat (word_length h c) <= 2 ^ 12) by (apply Z.pow_le_mono_r; lia). lia. }
  destruct (rfold_zrange (fun j '(sm_val, sm_num) => v <- get v2 j ;; Ok (if v <=? sm_val then (v, j) else (sm_val, sm_num)))
    (fun j '(x, m) => (s < j -> x = word_value h s /\ m = s) /\ (j <= s -> word_value h s < x <= 0xfffffff)) 0 depth (0xfffffff, 0xff)) as [[x m] [E [A _]]].
  - lia.
  - cbv beta iota. split; [lia|]. intros _. pose proof (Bs s Rs). lia.
  - intros j [x m] Hj [A B]. rewrite get_ok by lia. cbn [bind]. rewrite V by lia. eexists. split; [reflexivity|].
    pose proof (Bs s Rs) as Bss. pose proof (Bs j Hj) as Bj.
    destruct (Z.eq_dec j s) as [->|N].
    + rewrite Ps, Nat.ltb_irrefl. specialize (B ltac:(lia)). replace (word_value h s <=? x) with true by lia. cbv beta iota. split; [intros; split; reflexivity|lia].
    + destruct (pos j <? i)%nat eqn:Q.
      * assert (F : (4294967295 <=? x) = false) by (destruct (Z_lt_ge_dec s j) as [X|X]; [destruct (A X); lia|specialize (B ltac:(lia)); lia]).
        rewrite F. cbv beta iota. split; [intros; apply A; lia|intros; apply B; lia].
      * assert (O : word_value h s < word_value h j).
        { apply (value_order h depth Ht s j Rs Hj). rewrite Ps.
          assert (pos j <> i); [intros X; apply N; apply (pos_inj h depth Ht j s Hj Rs); lia|lia]. }
        destruct (Z_lt_ge_dec s j) as [X|X].
        -- destruct (A X) as [-> ->]. replace (word_value h j <=? word_value h s) with false by lia. cbv beta iota. split; [intros; split; reflexivity|lia].
        -- specialize (B ltac:(lia)). destruct (word_value h j <=? x); cbv beta iota; (split; [lia|intros; lia]).
  - destruct (A ltac:(lia)) as [-> ->]. eexists. exact E.
Qed.

Lemma sort_ok : forall v2, zlen v2 = 16 -> (forall c, 0 <= c < depth -> znth v2 c = word_value h c) ->
  exists v, rfold (pef_smallest depth) (zrange 0 depth) (v2, zeros 256) = Ok (v, padded syms).
Proof.
  intros v2 L V. pose proof Ht as [_ [H1 [H2 _]]].
  destruct (rfold_zrange (pef_smallest depth) (fun i '(v2, vals) => zlen v2 = 16 /\ zlen vals = 256 /\
      (forall c, 0 <= c < depth -> znth v2 c = if (pos c <? Z.to_nat i)%nat then 0xffffffff else word_value h c) /\
      (forall q, 0 <= q < 256 -> znth vals q = if q <? i then nth (Z.to_nat q) syms 0 else 0)) 0 depth (v2, zeros 256)) as [[v3 vals] [E [_ [Lv [_ Vv]]]]].
  - lia.
  - split; [exact L|]. split; [reflexivity|]. split; [intros c Hc; change (Z.to_nat 0) with 0%nat; cbn [Nat.ltb Nat.leb]; apply V; exact Hc|].
    intros q Hq. unfold zeros. rewrite znth_repeat by lia. replace (q <? 0) with false by lia. reflexivity.
  - intros i [v3 vals] Hi [L3 [Lv [V3 Vv]]]. unfold pef_smallest.
    destruct (scan_ok v3 (Z.to_nat i)) as [x Ex]; [lia|exact L3|exact V3|]. rewrite Ex. cbn [bind]. clear Ex x.
    pose proof (sym_range h depth Ht (Z.to_nat i) ltac:(lia)) as Rs. pose proof (pos_sym h depth Ht (Z.to_nat i) ltac:(lia)) as Ps.
    rewrite upd_ok by lia. cbn [bind]. rewrite upd_ok by lia. cbn [bind]. eexists. split; [reflexivity|]. cbv beta iota. rewrite !zlen_upd_nat.
    split; [exact L3|]. split; [exact Lv|]. split.
    + intros c Hc. rewrite znth_upd_nat by lia. destruct (c =? nth (Z.to_nat i) syms 0) eqn:Q.
      * replace c with (nth (Z.to_nat i) syms 0) by lia. rewrite Ps. replace (Z.to_nat i <? Z.to_nat (i + 1))%nat with true by lia. reflexivity.
      * rewrite V3 by exact Hc. assert (N : pos c <> Z.to_nat i) by (intros X; rewrite <- Ps in X; apply (pos_inj h depth Ht) in X; lia).
        replace (pos c <? Z.to_nat (i + 1))%nat with (pos c <? Z.to_nat i)%nat by lia. reflexivity.
    + intros q Hq. rewrite znth_upd_nat by lia. destruct (q =? i) eqn:Q.
      * replace (q <? i + 1) with true by lia. f_equal. lia.
      * rewrite Vv by lia. replace (q <? i + 1) with (q <? i) by lia. reflexivity.
  - exists v3. rewrite E. do 2 f_equal. unfold padded. apply list_znth_ext.
    + rewrite Lv, zlen_app. unfold zlen. rewrite repeat_length. lia.
    + intros q Hq. rewrite Vv by lia. unfold znth. destruct (q <? depth) eqn:Q.
      * rewrite app_nth1 by lia. reflexivity.
      * rewrite app_nth2 by lia. rewrite nth_repeat_lt by lia. reflexivity.
Qed.

Lemma note_good : forall dbg, good_code dbg 16 h.
Proof.
  intros dbg. pose proof Ht as [C [H1 [H2 [H3 [H4 H5]]]]]. apply plain_good.
  - exact C.
  - split; [exact H1|]. apply Forall_impl with (2 := H4). intros; lia.
  - destruct C as [_ [C2 _]]. pose proof (count_lengths counts 1 16 C2) as E. cbn [Nat.ltb Nat.leb Nat.sub] in E. rewrite <- E.
    fold ls. assert (count_occ Nat.eq_dec ls 16%nat = 0%nat) as ->; [|reflexivity]. apply count_occ_not_In. intros X. rewrite Forall_forall in H5. apply H5 in X. lia.
  - intros X. rewrite Forall_forall in H4. apply H4 in X. lia.
Qed.

Theorem pef_table_ok : forall e number twelve more, 0 <= number < 65536 -> (number + 12) mod 16 = depth -> length twelve = 12%nat ->
  exists t, pef_table (pentax_note e h depth number twelve more) e = Ok t /\ huff_new (0 :: counts) (padded syms) 16 false = Ok t.
Proof.
  intros e number twelve more Hn Hm Hl. unfold pef_table. set (data := pentax_note e h depth number twelve more).
  assert (A0 : At data 0 (pentax_note e h depth number twelve more)) by (exists []; split; reflexivity).
  unfold pentax_note in A0. destruct (At_two e data 0 number _ Hn A0) as [E0 A1]. unfold bs_get_u16 at 1, bs_peek_u16, bs_new. cbn [bsend bsbuf bspos].
  rewrite E0. cbn [bind]. change 15 with (Z.ones 4). rewrite Z.land_ones by lia. change (2 ^ 4) with 16. rewrite Hm. unfold bs_consume. cbn [bsend bsbuf bspos].
  apply At_app in A1. replace (0 + 2 + zlen twelve) with (0 + 2 + 12) in A1 by (unfold zlen; lia). rewrite upto_zrange in A1.
  destruct (read_array bs_get_u16 e 2 (two_bytes e) (fun c => word_value h c * 2 ^ (12 - Z.of_nat (word_length h c))) depth) with (buf := data) (pos := 0 + 2 + 12)
    (s := map (fun c => Z.of_nat (word_length h c)) (zrange 0 depth) ++ more) (v := zeros 16) as [v0 [p0 [Ev0 [L0 [V0 A2]]]]].
  { intros buf p i s Hi HA. destruct (value_12 h depth Ht i Hi) as [R _].
    cbv beta in HA. destruct (At_two e buf p (word_value h i * 2 ^ (12 - Z.of_nat (word_length h i))) s ltac:(lia) HA) as [X Y]. split; [|exact Y]. unfold bs_get_u16, bs_peek_u16. cbn [bsend bsbuf bspos]. rewrite X. reflexivity. }
  { change (zlen (zeros 16)) with 16. lia. }
  { exact A1. }
  rewrite Ev0. cbn [bind]. clear Ev0.
  destruct (read_array bs_get_u8 e 1 (fun v => [v]) (fun c => Z.of_nat (word_length h c)) depth) with (buf := data) (pos := p0)
    (s := more) (v := zeros 16) as [v1 [p1 [Ev1 [L1 [V1 _]]]]].
  { intros buf p i s Hi HA. cbn [app] in HA. split; [|apply At_next in HA; exact HA]. unfold bs_get_u8, bs_peek_u8. cbn [bsend bsbuf bspos]. rewrite (At_get _ _ _ _ HA). reflexivity. }
  { change (zlen (zeros 16)) with 16. lia. }
  { rewrite flat_map_concat_map. replace (concat (map (fun i => [Z.of_nat (word_length h i)]) (zrange 0 depth))) with (map (fun c => Z.of_nat (word_length h c)) (zrange 0 depth)); [exact A2|].
    clear A1 A2. induction (zrange 0 depth) as [|x l IH]; [reflexivity|]. cbn [map concat app]. f_equal. exact IH. }
  rewrite Ev1. cbn [bind]. clear Ev1.
  destruct (code_loop v0 v1 L0 L1 V0 V1) as [v2 [bits [E2 [L2 [V2 Eb]]]]]. rewrite E2. cbn [bind]. clear E2.
  destruct (sort_ok v2 L2 V2) as [v3 E3]. rewrite E3. cbn [bind]. rewrite Eb.
  pose proof (note_good debug) as [C [S1 [N [F _]]]].
  destruct (new_builds counts syms 16 false C S1 ltac:(lia) N F) as [t Et]. exists t. split; exact Et.
Qed.

Lemma note_words : forall d, Z.of_nat (category d) < depth -> -32768 <= d <= 32767 /\ has_word 16 h d.
Proof.
  intros d Hc. pose proof (category_le d (category d) (le_n _)) as B.
  assert (2 ^ Z.of_nat (category d) <= 2 ^ 14) by (apply Z.pow_le_mono_r; lia). split; [lia|]. split; [apply sym_in with depth; [exact Ht|lia]|].
  right. pose proof (length_le h depth Ht (Z.of_nat (category d))) as L. unfold word_length in L. rewrite Nat2Z.id in L. split; [lia|]. intros [X _].
  pose proof (pos_lt h depth Ht (Z.of_nat (category d)) ltac:(lia)) as P. rewrite Nat2Z.id, X in P. destruct Ht as [_ [H1 [H2 _]]]. lia.
Qed.
End Note.

Theorem pef_own_table : forall {M : Mode} tiff src w h pic rest en c depth number twelve more,
  find_entry tiff T_PefHuffman = Some en -> e_data en = pentax_note (i_endian tiff) c depth number twelve more ->
  pentax_table c depth -> 0 <= number < 65536 -> (number + 12) mod 16 = depth -> length twelve = 12%nat ->
  0 < w -> Z.even w = true -> 0 <= h -> sample_picture pic w h ->
  (forall r j, 0 <= r < h -> 0 <= j < w -> Z.of_nat (category (step_of (fun _ _ => 0) pic r j)) < depth) ->
  readable MSB src -> stream MSB src 0 = steps_coded (fun _ => code_of c) (fun _ _ => 0) pic w h ++ rest -> (32 <= length rest)%nat ->
  exists out, pef_decompress tiff src w h = Ok out /\ is_image out w h pic.
Proof.
  intros M tiff src w h pic rest en c depth number twelve more Hen Edata Ht Hn Hm Hl Hw He Hh Hs Hd Hrd Es Hr. apply Z.even_spec in He. destruct He as [m ->].
  assert (Hdep : 0 <= depth <= 15) by lia.
  unfold pef_decompress. rewrite Hen, Edata.
  destruct (pef_table_ok c depth Ht Hdep (i_endian tiff) number twelve more Hn Hm Hl) as [t [Et Et']]. rewrite Et. cbn [bind].
  refine (pef_rows_ok t (code_of c) (fun d => -32768 <= d <= 32767 /\ has_word 16 c d) m h pic _ Hs _ ltac:(lia) Hh src rest Hrd Es Hr).
  - apply (code_codes MSB 16 false c t); [discriminate|lia|apply (note_good c depth Ht Hdep)|discriminate|exact Et'].
  - intros r j Hr' Hc. apply (note_words c depth Ht Hdep). apply Hd; assumption.
Qed.
