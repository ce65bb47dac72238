(** Proofs about Huffman decoding: tables on which it goes wrong. *)
From Coq Require Import String ZArith List Bool Lia ZifyBool ZifyNat.
From Verif Require Import Base Pumps Huffman Spec_Bits Spec_Pump Spec_Stream Spec_Huffman P_Base P_Bits P_Pumps
  P_Huff1 P_Huff2 P_Huff3 P_Huff4 P_Huff5 P_Huff6.
Import ListNotations.
Local Open Scope Z_scope.
Ltac Zify.zify_post_hook ::= Z.div_mod_to_equations.

Ltac table_tac := split; [reflexivity|]; split; [repeat constructor; discriminate|]; split;
  [apply Nat.leb_le; reflexivity|apply Z.leb_le; reflexivity].

(** A complete code with words of 16 bits. *)
Definition full_counts : list Z := [1;1;1;1;1;1;1;1;1;1;1;1;1;1;1;2].
Lemma full_panics : code_table full_counts /\ symbols_for full_counts [0;1;2;3;4;5;6;7;8;9;10;11;12;13;14;15;16] /\
  huff_new (M := true) (0 :: full_counts) (padded [0;1;2;3;4;5;6;7;8;9;10;11;12;13;14;15;16]) 16 false = Panic.
Proof.
  split; [table_tac|]. split; [split; [reflexivity|repeat constructor; discriminate]|]. vm_compute. reflexivity.
Qed.
(** An incomplete code with one word of 16 bits. *)
Definition one16 : list Z := [0;0;0;0;0;0;0;0;0;0;0;0;0;0;0;1].
Lemma one16_panics : code_table one16 /\ symbols_for one16 [3] /\ not_full one16 /\
  forall M : Mode, huff_new (0 :: one16) (padded [3]) 16 false = Panic.
Proof.
  split; [table_tac|]. split; [split; [reflexivity|repeat constructor; discriminate]|].
  split; [right; reflexivity|]. intros [|]; vm_compute; reflexivity.
Qed.

(** 255 words of nine bits and one of ten. *)
Definition last_alone : list Z := [0;0;0;0;0;0;0;0;255;1;0;0;0;0;0;0].
Lemma last_alone_lengths : lengths last_alone = repeat 9%nat 255 ++ [10%nat].
Proof. reflexivity. Qed.
Lemma last_alone_table : code_table last_alone.
Proof. table_tac. Qed.
Lemma last_alone_symbols : symbols_for last_alone (repeat 7 255 ++ [5]).
Proof.
  split; [reflexivity|]. apply Forall_app. split; [|repeat constructor; discriminate].
  apply Forall_forall. intros x Hx. apply repeat_spec in Hx. lia.
Qed.
Lemma last_alone_refused : exists buf, readable JPEG buf /\ (exists r, bits_of (unstuff buf) = codeword (lengths last_alone) 255 ++ r) /\
  forall (M : Mode) t, huff_new (0 :: last_alone) (padded (repeat 7 255 ++ [5])) 14 false = Ok t ->
    read_symbols JPEG t buf 1 0 = Err "ljpeg: bad Huffman code".
Proof.
  exists [127; 128; 0; 0].
  assert (EW : codeword (lengths last_alone) 255 = [false; true; true; true; true; true; true; true; true; false])
    by (vm_compute; reflexivity).
  assert (RB : readable JPEG [127; 128; 0; 0]).
  { split; [repeat constructor; discriminate|]. intros _. split; [split; [discriminate|reflexivity]|discriminate]. }
  split; [assumption|]. split; [rewrite EW; eexists; reflexivity|].
  intros M t Hn. apply (new_refuses last_alone _ 14 false t last_alone_table last_alone_symbols
    ltac:(intros _; left; reflexivity) Hn JPEG [127; 128; 0; 0] 0 0 0); [discriminate|assumption|lia|cbn; lia|].
  intros j Hj Hd E.
  assert (Ej : j = 255%nat).
  { apply (prefix_free last_alone j 255 last_alone_table Hj); [rewrite last_alone_lengths; cbn; lia|].
    exists (skipn (length (codeword (lengths last_alone) j)) (codeword (lengths last_alone) 255)).
    assert (Lj : (length (codeword (lengths last_alone) j) <= 10)%nat).
    { rewrite codeword_length, last_alone_lengths. rewrite last_alone_lengths in Hj. rewrite app_length, repeat_length in Hj.
      cbn [length] in Hj. destruct (Nat.lt_ge_cases j 255).
      - rewrite app_nth1 by (rewrite repeat_length; lia). rewrite nth_indep with (d' := 9%nat) by (rewrite repeat_length; lia).
        rewrite nth_repeat. lia.
      - replace j with 255%nat by lia. cbn. lia. }
    rewrite <- (firstn_skipn (length (codeword (lengths last_alone) j)) (codeword (lengths last_alone) 255)) at 1. f_equal.
    rewrite <- codeword_length in E. rewrite <- E at 2. rewrite EW.
    change (stream JPEG [127; 128; 0; 0] 0) with ([false; true; true; true; true; true; true; true; true; false]
       ++ skipn 10 (stream JPEG [127; 128; 0; 0] 0)).
    rewrite firstn_app. replace (length (codeword (lengths last_alone) j) - length [false; true; true; true; true; true; true; true; true; false])%nat
      with 0%nat by (cbn [length]; lia). rewrite firstn_O, app_nil_r. reflexivity. }
  subst j. rewrite last_alone_lengths in Hd. destruct Hd as [Hd|[_ Hd]]; [cbn in Hd; lia|apply Hd; cbn; lia].
Qed.

(** The first entry of the 13-bit table, when it comes from a word of zeros
    for category 16. *)
Lemma entry0 : forall {M : Mode} counts prec dng t n, code_table counts -> symbols_for counts [16] ->
  (debug = true -> not_full counts) -> 0 <= prec <= 16 ->
  huff_new (0 :: counts) (padded [16]) prec dng = Ok t ->
  hit (0 :: counts) (window 0) n 0 -> Fn (0 :: counts) n = 0 -> reachable (0 :: counts) t n ->
  get (hbig t) 0 = Ok (256 * -32768 + (if dng then 16 + Z.of_nat (S n) else Z.of_nat (S n))).
Proof.
  intros M counts prec dng t n Hc Hs Hf Hp Hn Hh HF Hr.
  destruct (t_built counts [16] prec dng t Hc Hs Hf Hn) as [A [B [C [D [t1 [E1 [_ [_ [_ E2]]]]]]]]].
  rewrite bigtable_eq in E1.
  destruct (mapM_zrange_get _ _ _ 0 E1 ltac:(lia)) as [x [G1 G2]]. rewrite G1. f_equal.
  rewrite E2 in G2.
  destruct (big_entry_cases (0 :: counts) (hpos counts Hc) (hcount counts Hc) (padded [16]) (hvals counts Hc [16] (proj1 Hs))
     (hbytes counts [16] (proj1 Hs) (s_bytes counts [16] Hs)) (htail counts Hc [16] (proj1 Hs)) (hvals_le counts [16] (proj1 Hs) (s_le counts [16] Hs)) M t A ltac:(lia) 0 ltac:(lia))
     as [[n' [j [H1 [_ H2]]]]|[H1 _]].
  - destruct (hit_unique _ (hpos counts Hc) _ _ _ _ _ Hh H1) as [<- <-].
    rewrite H2, HF in G2. change (znth (padded [16]) (0 + 0)) with 16 in G2.
    rewrite (big_value_ok (0 :: counts) (padded [16]) (htail counts Hc [16] (proj1 Hs)) (hvals_le counts [16] (proj1 Hs) (s_le counts [16] Hs)) M) in G2; [|apply window_length|lia|destruct Hh; lia]. apply Ok_inj in G2. rewrite C in G2. symmetry. exact G2.
  - exfalso. exact (H1 _ _ Hh Hr).
Qed.

(** One word of 14 bits, for category 16. *)
Definition long16 : list Z := [0;0;0;0;0;0;0;0;0;0;0;0;0;1;0;0].
Lemma long16_differs : code_table long16 /\ symbols_for long16 [16] /\ not_full long16 /\
  forall M : Mode, exists t, huff_new (0 :: long16) (padded [16]) 14 false = Ok t /\
    read_diffs JPEG t [0; 4; 0; 0] 1 0 = Ok ([-32768], 0) /\
    read_diffs JPEG (without_bigtable t) [0; 4; 0; 0] 1 0 = Err "ljpeg: bad Huffman code".
Proof.
  assert (HT : code_table long16) by table_tac.
  assert (HS : symbols_for long16 [16]) by (split; [reflexivity|repeat constructor; discriminate]).
  split; [assumption|]. split; [assumption|]. split; [right; reflexivity|]. intros M.
  assert (HF : debug = true -> not_full long16) by (intros _; left; reflexivity).
  destruct (new_builds long16 [16] 14 false HT HS ltac:(lia) HF ltac:(left; lia)) as [t Et].
  exists t. split; [exact Et|].
  destruct (t_built long16 [16] 14 false t HT HS HF Et) as [A [B [C [D _]]]].
  assert (RB : readable JPEG [0; 4; 0; 0]).
  { split; [repeat constructor; discriminate|]. intros _. split; [split; [discriminate|reflexivity]|discriminate]. }
  split.
  - assert (G : get (hbig t) 0 = Ok (256 * -32768 + Z.of_nat 14)).
    { apply (entry0 long16 14 false t 13 HT HS HF ltac:(lia) Et).
      - split; [lia|]. split; [cbn; lia|]. split; [split; [lia|reflexivity]|reflexivity].
      - reflexivity.
      - right. rewrite B. split; [lia|discriminate]. }
    unfold read_diffs, times, huff_decode. rewrite D.
    assert (EP : exists p1 p2 p3, peek_bits JPEG (pump_new [0; 4; 0; 0]) 13 = Ok (0, p1) /\ consume_bits JPEG p1 14 = Ok p2 /\
      get_bits JPEG p2 0 = Ok (0, p3)).
    { destruct M; do 3 eexists; (split; [vm_compute; reflexivity|]); (split; [vm_compute; reflexivity|]); vm_compute; reflexivity. }
    destruct EP as [p1 [p2 [p3 [EP1 [EP2 EP3]]]]].
    rewrite EP1. cbn [bind]. rewrite G. cbn [bind]. change (Z.land (256 * -32768 + Z.of_nat 14) 255) with 14.
    change (negb (14 =? 255)) with true. cbv iota. rewrite EP2. cbn [bind]. change (Z.of_nat 0) with 0. rewrite EP3. reflexivity.
  - unfold read_diffs. cbn [times].
    rewrite (decode_refuse long16 HT [16] eq_refl (s_bytes long16 [16] HS) M (without_bigtable t)
      (slow_ok long16 [16] 14 false t HT HS HF Et) ltac:(cbn [without_bigtable hprec]; lia) (s_le long16 [16] HS)
      (slow_safe long16 [16] t) JPEG _ _ ltac:(discriminate) (Repr_new JPEG [0; 4; 0; 0] 0 RB) ltac:(cbn; lia)).
    + reflexivity.
    + intros n i Hh _. destruct (hit_codeword long16 HT _ n i Hh) as [K1 [K2 K3]].
      set (j := Z.to_nat (Fn (0 :: long16) n + i)) in *. change (length (lengths long16)) with 1%nat in K1.
      replace j with 0%nat in * by lia. change (nth 0 (lengths long16) 0%nat) with 14%nat in K2.
      replace (S n) with 14%nat in K3 by lia. vm_compute in K3. discriminate.
Qed.

(** A one-bit word for category 16, with the DNG variant. *)
Definition dng16 : list Z := [1;0;0;0;0;0;0;0;0;0;0;0;0;0;0;0].
Lemma dng16_differs : code_table dng16 /\ symbols_for dng16 [16] /\ not_full dng16 /\
  forall M : Mode, debug = true -> exists t, huff_new (0 :: dng16) (padded [16]) 14 true = Ok t /\
    read_diffs JPEG t (repeat 0 16) 2 0 = Panic /\
    read_diffs JPEG (without_bigtable t) (repeat 0 16) 2 0 = Ok ([-32768; -32768], 0).
Proof.
  assert (HT : code_table dng16) by table_tac.
  assert (HS : symbols_for dng16 [16]) by (split; [reflexivity|repeat constructor; discriminate]).
  split; [assumption|]. split; [assumption|]. split; [right; reflexivity|]. intros M DB.
  assert (HF : debug = true -> not_full dng16) by (intros _; left; reflexivity).
  destruct (new_builds dng16 [16] 14 true HT HS ltac:(lia) HF ltac:(left; lia)) as [t Et].
  exists t. split; [exact Et|].
  destruct (t_built dng16 [16] 14 true t HT HS HF Et) as [A [B [C [D _]]]].
  assert (RB : readable JPEG (repeat 0 16)).
  { split; [repeat constructor; discriminate|]. intros _. split; [split; [discriminate|reflexivity]|discriminate]. }
  split.
  - assert (G : get (hbig t) 0 = Ok (256 * -32768 + (16 + Z.of_nat 1))).
    { apply (entry0 dng16 14 true t 0 HT HS HF ltac:(lia) Et).
      - split; [lia|]. split; [cbn; lia|]. split; [split; [lia|reflexivity]|reflexivity].
      - reflexivity.
      - left. lia. }
    unfold read_diffs, times, huff_decode. rewrite D. unfold debug in DB. subst M.
    assert (EP : exists p1 p2 p3, peek_bits (M := true) JPEG (pump_new (repeat 0 16)) 13 = Ok (0, p1) /\ consume_bits (M := true) JPEG p1 17 = Ok p2 /\
      peek_bits (M := true) JPEG p2 13 = Ok (0, p3) /\ consume_bits (M := true) JPEG p3 17 = Panic).
    { do 3 eexists; (split; [vm_compute; reflexivity|]); (split; [vm_compute; reflexivity|]); (split; [vm_compute; reflexivity|]); vm_compute; reflexivity. }
    destruct EP as [p1 [p2 [p3 [EP1 [EP2 [EP3 EP4]]]]]].
    rewrite EP1. cbn [bind]. rewrite G. cbn [bind]. change (Z.land (256 * -32768 + (16 + Z.of_nat 1)) 255) with 17.
    change (negb (17 =? 255)) with true. cbv iota. rewrite EP2. cbn [bind].
    rewrite EP3. cbn [bind]. rewrite G. cbn [bind]. change (Z.land (256 * -32768 + (16 + Z.of_nat 1)) 255) with 17.
    change (negb (17 =? 255)) with true. cbv iota. rewrite EP4. reflexivity.
  - unfold read_diffs. cbn [times].
    pose proof (fun p bs => decode_hit dng16 HT [16] eq_refl (s_bytes dng16 [16] HS) M (without_bigtable t)
      (slow_ok dng16 [16] 14 true t HT HS HF Et) ltac:(cbn [without_bigtable hprec]; lia) (s_le dng16 [16] HS)
      (slow_safe dng16 [16] t) JPEG p bs 0 0 ltac:(discriminate)) as ST.
    assert (EU : used (without_bigtable t) 0 (znth ([16] ++ repeat 0 (256 - length [16])) (Fn (0 :: dng16) 0 + 0)) = 17%nat).
    { unfold used. cbn [without_bigtable hdng]. rewrite C. reflexivity. }
    assert (RC : reachable (0 :: dng16) (without_bigtable t) 0) by (left; lia).
    destruct (ST (pump_new (repeat 0 16)) _ (Repr_new JPEG (repeat 0 16) 0 RB)) as [p1 [E1 R1]].
    { split; [lia|]. split; [cbn; lia|]. split; [split; [lia|reflexivity]|vm_compute; reflexivity]. }
    { assumption. } { cbn; lia. } { rewrite EU. cbn; lia. } { intros _. cbn; lia. }
    rewrite EU in R1. rewrite E1. cbn [bind].
    destruct (ST p1 _ R1) as [p2 [E2 R2]].
    { split; [lia|]. split; [vm_compute; lia|]. split; [split; [lia|reflexivity]|vm_compute; reflexivity]. }
    { assumption. } { vm_compute; lia. } { rewrite EU. vm_compute; lia. } { intros _. vm_compute; lia. }
    rewrite E2. cbn [bind].
    destruct (tail_bits M JPEG p2 _ 0 ltac:(discriminate) R2 ltac:(lia) ltac:(lia)) as [p3 E3].
    rewrite E3. reflexivity.
Qed.
Lemma last_word_refused : exists counts syms j buf, code_table counts /\ symbols_for counts syms /\
  (j < length (lengths counts))%nat /\ Z.of_nat (nth j (lengths counts) 0%nat) <= 14 /\ readable JPEG buf /\
  (exists r, bits_of (unstuff buf) = codeword (lengths counts) j ++ r) /\
  forall (M : Mode) t, huff_new (0 :: counts) (padded syms) 14 false = Ok t ->
    read_symbols JPEG t buf 1 0 = Err "ljpeg: bad Huffman code"%string.
Proof.
  destruct last_alone_refused as [buf [H1 [H2 H3]]].
  exists last_alone, (repeat 7 255 ++ [5]), 255%nat, buf. split; [apply last_alone_table|]. split; [apply last_alone_symbols|].
  split; [rewrite last_alone_lengths; cbn; lia|]. split; [rewrite last_alone_lengths; cbn; lia|]. auto.
Qed.
Lemma long_word_refuted : exists counts syms, code_table counts /\ symbols_for counts syms /\ not_full counts /\
  forall M : Mode, exists t buf, huff_new (0 :: counts) (padded syms) 14 false = Ok t /\
    read_diffs JPEG t buf 1 0 = Ok ([-32768], 0) /\
    read_diffs JPEG (without_bigtable t) buf 1 0 = Err "ljpeg: bad Huffman code"%string.
Proof.
  destruct long16_differs as [A [B [C D]]]. exists long16, [16]. split; [assumption|]. split; [assumption|]. split; [assumption|].
  intros M. destruct (D M) as [t E]. exists t, [0; 4; 0; 0]. exact E.
Qed.
Lemma dng_refuted : exists counts syms, code_table counts /\ symbols_for counts syms /\ not_full counts /\
  forall M : Mode, debug = true -> exists t buf, huff_new (0 :: counts) (padded syms) 14 true = Ok t /\
    read_diffs JPEG t buf 2 0 = Panic /\
    read_diffs JPEG (without_bigtable t) buf 2 0 = Ok ([-32768; -32768], 0).
Proof.
  destruct dng16_differs as [A [B [C D]]]. exists dng16, [16]. split; [assumption|]. split; [assumption|]. split; [assumption|].
  intros M H. destruct (D M H) as [t E]. exists t, (repeat 0 16). exact E.
Qed.
Lemma new_fast_slow_jpeg : forall {M : Mode} counts syms prec dng t,
  code_table counts -> symbols_for counts syms -> (debug = true -> not_full counts) ->
  huff_new (0 :: counts) (padded syms) prec dng = Ok t ->
  0 <= prec <= 16 -> short_16 (lengths counts) syms -> (dng = true -> ~ In 16 syms) ->
  forall buf n m, readable JPEG buf -> (m <= 32)%nat ->
  read_diffs JPEG t buf n m = read_diffs JPEG (without_bigtable t) buf n m.
Proof.
  intros M counts syms prec dng t Hc Hs Hf Hn Hp H16 Hd buf n m Hb Hm.
  apply (new_fast_slow counts syms prec dng t Hc Hs Hf Hn Hp H16 Hd JPEG buf (33 * n + 33)); try assumption; [discriminate|].
  cbn [stream]. rewrite app_length, repeat_length. lia.
Qed.
Lemma difference_magnitude : forall n v, 0 <= v < 2 ^ Z.of_nat n -> difference n v <> 0 ->
  2 ^ Z.of_nat n <= 2 * Z.abs (difference n v) < 2 * 2 ^ Z.of_nat n.
Proof.
  intros n v Hv Hd. unfold difference in *. destruct n as [|m]; [cbn in Hd; lia|].
  change (S m =? 0)%nat with false in *. cbv iota in *. rewrite pow2_S in *.
  replace (Z.of_nat (S m) - 1) with (Z.of_nat m) in * by lia. destruct (_ <=? v) eqn:E; lia.
Qed.
