(** Proofs about Huffman decoding: the statements used for the properties. *)
From Coq Require Import String ZArith List Bool Lia ZifyBool ZifyNat.
From Verif Require Import Base Pumps Huffman Spec_Bits Spec_Pump Spec_Stream Spec_Huffman P_Base P_Bits P_Pumps
  P_Huff1 P_Huff2 P_Huff3 P_Huff4 P_Huff5.
Import ListNotations.
Local Open Scope Z_scope.
Ltac Zify.zify_post_hook ::= Z.div_mod_to_equations.

(** ** Differences *)
Lemma category_bounds : forall d, d <> 0 -> exists L, 0 <= L /\ category d = Z.to_nat (L + 1) /\ Z.of_nat (category d) = L + 1 /\
  2 ^ L <= Z.abs d < 2 * 2 ^ L /\ 2 ^ (L + 1) = 2 * 2 ^ L.
Proof.
  intros d Hd. exists (Z.log2 (Z.abs d)). pose proof (Z.log2_nonneg (Z.abs d)) as P.
  pose proof (Z.log2_spec (Z.abs d) ltac:(lia)) as S. rewrite Z.pow_succ_r in S by assumption.
  unfold category. replace (d =? 0) with false by lia.
  split; [assumption|]. split; [reflexivity|]. split; [lia|]. split; [lia|].
  rewrite Z.add_1_r, Z.pow_succ_r by assumption. reflexivity.
Qed.
Lemma difference_extra : forall d, 0 <= extra d < 2 ^ Z.of_nat (category d) /\ difference (category d) (extra d) = d.
Proof.
  intros d. destruct (Z.eq_dec d 0) as [->|Hd]; [cbn; lia|].
  destruct (category_bounds d Hd) as [L [P [E [E' [B B']]]]]. unfold extra, difference. rewrite E', B'.
  replace (category d =? 0)%nat with false by lia. replace (L + 1 - 1) with L by lia.
  pose proof (pow2_pos L P). destruct (d <? 0) eqn:N.
  - split; [lia|]. replace (2 ^ L <=? d + 2 * 2 ^ L - 1) with false by lia. lia.
  - split; [lia|]. replace (2 ^ L <=? d) with true by lia. reflexivity.
Qed.
Lemma difference_unique : forall n v d, 0 <= v < 2 ^ Z.of_nat n -> difference n v = d -> n = category d /\ v = extra d.
Proof.
  intros n v d Hv E. unfold difference in E. destruct (n =? 0)%nat eqn:E0.
  - replace n with 0%nat in * by lia. change (2 ^ Z.of_nat 0) with 1 in Hv. subst d. cbn. lia.
  - destruct n as [|m]; [lia|]. rewrite pow2_S in *. replace (Z.of_nat (S m) - 1) with (Z.of_nat m) in E by lia.
    pose proof (pow2_pos_nat m) as P.
    assert (H : 2 ^ Z.of_nat m <= Z.abs d < 2 * 2 ^ Z.of_nat m /\ (d <? 0) = (v <? 2 ^ Z.of_nat m)).
    { destruct (2 ^ Z.of_nat m <=? v) eqn:Eb; subst d; lia. }
    destruct H as [H1 H2].
    assert (EL : Z.log2 (Z.abs d) = Z.of_nat m).
    { apply Z.log2_unique; [lia|]. rewrite Z.pow_succ_r by lia. assumption. }
    assert (EC : S m = category d) by (unfold category; replace (d =? 0) with false by lia; lia).
    split; [assumption|]. unfold extra. rewrite <- EC, H2, pow2_S.
    destruct (2 ^ Z.of_nat m <=? v) eqn:Eb; [replace (v <? 2 ^ Z.of_nat m) with false by lia|replace (v <? 2 ^ Z.of_nat m) with true by lia]; lia.
Qed.
Lemma category_range : forall d, -32768 <= d <= 32767 -> (category d <= 16)%nat /\ (category d = 16%nat <-> d = -32768).
Proof.
  intros d H. destruct (Z.eq_dec d 0) as [->|Hd]; [cbn; lia|].
  destruct (category_bounds d Hd) as [L [P [E [E' [B B']]]]].
  assert (L <= 15).
  { destruct (Z_le_gt_dec L 15); [assumption|]. assert (2 ^ 16 <= 2 ^ L) by (apply Z.pow_le_mono_r; lia).
    change (2 ^ 16) with 65536 in *. lia. }
  split; [lia|]. split.
  - intros C. assert (L = 15) by lia. subst L. change (2 ^ 15) with 32768 in B. lia.
  - intros ->. assert (~ L <= 14).
    { intros Q. assert (2 ^ L <= 2 ^ 14) by (apply Z.pow_le_mono_r; lia). change (2 ^ 14) with 16384 in *. lia. }
    lia.
Qed.

(** ** Tables built by [huff_new] *)
Lemma new_initialize : forall {M : Mode} bits vals prec dng, huff_new bits vals prec dng =
  huff_initialize (mkhuff bits vals (zeros 17) (zeros 18) (zeros 17) (zeros 256) [] prec true dng false) true.
Proof. intros. unfold huff_new. exact eq_refl. Qed.

Section New.
Context {M : Mode}.
Variables (counts syms : list Z) (prec : Z) (dng : bool) (t : hufftable).
Hypothesis Hc : code_table counts.
Hypothesis Hs : symbols_for counts syms.
Hypothesis Hfull : debug = true -> not_full counts.
Hypothesis Hnew : huff_new (0 :: counts) (padded syms) prec dng = Ok t.
Notation bits := (0 :: counts).
Notation ls := (lengths counts).
Lemma s_len : length syms = length ls.
Proof. exact (proj1 Hs). Qed.
Lemma s_bytes : bytes syms.
Proof. eapply Forall_impl; [|exact (proj2 Hs)]. unfold byte. cbn. lia. Qed.
Lemma s_le : forall s, In s syms -> s <= 16.
Proof. intros s H. pose proof (proj1 (Forall_forall _ _) (proj2 Hs) s H) as R. cbn in R. lia. Qed.
Lemma t_built : table_ok bits (padded syms) t /\ hprec t = prec /\ hdng t = dng /\ huse_big t = true /\
  (exists t1, huff_bigtable t1 = Ok (hbig t) /\ table_ok bits (padded syms) t1 /\ hprec t1 = hprec t /\ hdng t1 = hdng t
     /\ (forall i, big_entry t1 i = big_entry t i)).
Proof.
  rewrite new_initialize in Hnew.
  destruct (built counts Hc syms s_len s_bytes M Hfull
     (mkhuff bits (padded syms) (zeros 17) (zeros 18) (zeros 17) (zeros 256) [] prec true dng false) true t eq_refl eq_refl eq_refl eq_refl eq_refl eq_refl Hnew)
    as [A [B [C [D E]]]]. cbn [hprec hdng] in B, C. specialize (E eq_refl). auto.
Qed.

Lemma new_symbols : forall k ks buf pad rest m, k <> LSB -> readable k buf ->
  stream k buf pad = encode ls ks ++ rest -> (8 <= length rest)%nat -> (m <= 32)%nat -> (m <= length rest)%nat ->
  Forall (fun j => (j < length ls)%nat /\ decodable prec ls j) ks ->
  read_symbols k t buf (length ks) m = Ok (map (fun j => nth j syms 0) ks, number (firstn m rest)).
Proof.
  intros k ks buf pad rest m Hk Hb Es H8 Hm Hml HF. unfold read_symbols.
  destruct t_built as [A [B [C [D E]]]]. pose proof (Repr_new k buf pad Hb) as R. rewrite Es in R.
  destruct (symbols_ok counts Hc syms s_len s_bytes M t A k ks (pump_new buf) rest Hk H8) as [p' [E1 R1]]; [|assumption|].
  { eapply Forall_impl; [|exact HF]. intros j [J1 J2]. split; [assumption|]. unfold usable. rewrite B. exact J2. }
  rewrite E1. cbn [bind]. destruct (tail_bits M k p' rest m Hk R1 Hm Hml) as [p2 E2]. rewrite E2. reflexivity.
Qed.
Lemma new_refuses : forall k buf pad n m, k <> LSB -> readable k buf -> prec <= 16 -> (17 <= length (stream k buf pad))%nat ->
  (forall j, (j < length ls)%nat -> decodable prec ls j -> firstn (nth j ls 0%nat) (stream k buf pad) <> codeword ls j) ->
  read_symbols k t buf (S n) m = Err "ljpeg: bad Huffman code".
Proof.
  intros k buf pad n m Hk Hb Hp HL N. unfold read_symbols.
  destruct t_built as [A [B [C [D E]]]]. pose proof (Repr_new k buf pad Hb) as R. set (bs := stream k buf pad) in *.
  assert (EQ : huff_len k t (pump_new buf) = Err "ljpeg: bad Huffman code").
  { destruct (hit_dec bits bs 16 ltac:(lia) ltac:(lia)) as [[n' [i [Hn Hh]]]|NH].
    - apply (huff_len_unreachable bits (hpos counts Hc) (hcount counts Hc) (padded syms) (hvals counts Hc syms s_len) M t A k _ bs n' i Hk R);
        [lia|assumption|]. intros Hr. destruct (hit_codeword counts Hc bs n' i Hh) as [J1 [J2 J3]].
      apply (N _ J1); [|rewrite J2; exact J3].
      pose proof Hh as [_ [_ [Hi _]]].
      assert (U : usable counts t (Z.to_nat (Fn bits n' + i))).
      { eapply (reachable_usable counts Hc syms s_len M t); [exact Hn|exact Hi| |exact Hr].
        pose proof (Fn_pos bits (hpos counts Hc) n'). lia. }
      unfold usable in U. rewrite B in U. exact U.
    - apply (huff_len_miss bits (hpos counts Hc) (padded syms) M t A k _ bs Hk R HL); [lia|assumption]. }
  cbn [times]. rewrite EQ. reflexivity.
Qed.

(** ** The 13-bit table and the slow decoder *)
Hypothesis Hprec : 0 <= prec <= 16.
Hypothesis H16 : short_16 ls syms.
Hypothesis Hdng : dng = true -> ~ In 16 syms.
Lemma sym_16 : forall n i, (n < 16)%nat -> 0 <= i < cn bits (S n) -> znth (padded syms) (Fn bits n + i) = 16 ->
  let k := Z.to_nat (Fn bits n + i) in (k < length ls)%nat /\ nth k ls 0%nat = S n /\ nth k syms 0 = 16.
Proof.
  intros n i Hn Hi E k. destruct (word_at counts Hc n i Hn Hi) as [W _]. fold k in W.
  pose proof (Fn_pos bits (hpos counts Hc) n). pose proof (Fn_mono bits (hpos counts Hc) (S n) 16 ltac:(lia)) as FM.
  rewrite (Fn_S bits), (hnumber counts Hc) in FM.
  assert (K : (k < length ls)%nat) by (unfold k; lia).
  split; [assumption|]. split; [assumption|]. rewrite <- E.
  rewrite <- (hval_at counts syms s_len k K). unfold padded. f_equal. unfold k. lia.
Qed.
Lemma t_safe : shortcut_safe counts syms M t.
Proof.
  destruct t_built as [A [B [C [D E]]]]. right. split; [assumption|]. split; [assumption|]. split.
  - intros n i L Hn Hi F. destruct (sym_16 n i Hn Hi F) as [K1 [K2 K3]]. specialize (H16 _ K1 K3). lia.
  - intros G n i Hn Hi F. rewrite C in G. destruct (sym_16 n i Hn Hi F) as [K1 [K2 K3]].
    apply (Hdng G). rewrite <- K3. apply nth_In. rewrite s_len. assumption.
Qed.
Lemma slow_safe : shortcut_safe counts syms M (without_bigtable t).
Proof. left. reflexivity. Qed.
Lemma slow_ok : table_ok bits (padded syms) (without_bigtable t).
Proof. destruct t_built as [[]  _]. constructor; assumption. Qed.

Lemma used_le : forall n i, (n < 16)%nat -> 0 <= i < cn bits (S n) -> (used t n (znth (padded syms) (Fn bits n + i)) <= 32)%nat.
Proof.
  intros n i Hn Hi. destruct t_built as [A _].
  pose proof (sym_range bits (hpos counts Hc) (hcount counts Hc) (padded syms) (hvals counts Hc syms s_len)
     (hbytes counts syms s_len s_bytes) (htail counts Hc syms s_len) (hvals_le counts syms s_len s_le) t A n i Hn Hi).
  unfold used. destruct (_ =? 16); [destruct (hdng t)|]; lia.
Qed.

Definition seq_agree (k : pkind) (u v : hufftable) : Prop := forall n p q bs, Repr k p bs -> Repr k q bs -> (33 * n + 33 <= length bs)%nat ->
  (exists vs p' q' bs', times (huff_decode k u) n p = Ok (vs, p') /\ times (huff_decode k v) n q = Ok (vs, q') /\
     Repr k p' bs' /\ Repr k q' bs' /\ (length bs <= length bs' + 32 * n)%nat) \/
  (exists e, times (huff_decode k u) n p = Err e /\ times (huff_decode k v) n q = Err e).
Lemma diffs_agree : forall k, k <> LSB -> seq_agree k t (without_bigtable t).
Proof.
  intros k Hk n. destruct t_built as [A [B [C [D E]]]].
  induction n as [|n IH]; intros p q bs R1 R2 HL.
  - left. exists [], p, q, bs. cbn [times].
    split; [reflexivity|]. split; [reflexivity|]. split; [assumption|]. split; [assumption|]. lia.
  - cbn [times].
    assert (DEC : (exists n i, hit bits bs n i /\ reachable bits t n) \/ (forall n i, hit bits bs n i -> ~ reachable bits t n)).
    { destruct (hit_dec bits bs 16 ltac:(lia) ltac:(lia)) as [[m [i [Hm Hh]]]|NH].
      - assert (RD : reachable bits t m \/ ~ reachable bits t m).
        { unfold reachable. destruct (Nat.lt_ge_cases m 8); [left; left; assumption|].
          destruct (Z_le_gt_dec (Z.of_nat (S m)) (hprec t)); [|right; lia].
          destruct (Z.eq_dec (Fn bits m) 255); [right; lia|left; right; split; assumption]. }
        destruct RD as [RD|RD]; [left; exists m, i; auto|]. right. intros m' i' Hh'.
        destruct (hit_unique bits (hpos counts Hc) bs _ _ _ _ Hh Hh') as [<- <-]. assumption.
      - right. intros m i Hh _. apply (NH m i); [destruct Hh; assumption|assumption]. }
    destruct DEC as [[m [i [Hh Hr]]]|N].
    + pose proof Hh as [Hm [_ [Hi _]]]. pose proof (used_le m i Hm Hi) as U.
      destruct (decode_hit counts Hc syms s_len s_bytes M t A ltac:(lia) s_le t_safe k p bs m i Hk R1 Hh Hr
                  ltac:(lia) ltac:(unfold padded in U; lia) ltac:(lia)) as [p1 [E1 P1]].
      destruct (decode_hit counts Hc syms s_len s_bytes M (without_bigtable t) slow_ok ltac:(cbn [without_bigtable hprec]; lia) s_le slow_safe k q bs m i Hk R2 Hh Hr
                  ltac:(lia) ltac:(unfold padded in U; unfold used in *; cbn [without_bigtable hdng] in *; lia) ltac:(lia)) as [q1 [E2 P2]].
      rewrite E1, E2. cbn [bind].
      change (used (without_bigtable t)) with (used t) in P2.
      unfold padded in U. set (c := used t m (znth (syms ++ repeat 0 (256 - length syms)) (Fn bits m + i))) in *.
      destruct (IH p1 q1 (skipn c bs) P1 P2) as [[vs [p' [q' [bs' [F1 [F2 [F3 [F4 F5]]]]]]]]|[e [F1 F2]]].
      * rewrite skipn_length. lia.
      * left. rewrite F1, F2. cbn [bind]. eexists _, p', q', bs'. split; [reflexivity|]. split; [reflexivity|].
        split; [assumption|]. split; [assumption|]. rewrite skipn_length in F5. lia.
      * right. rewrite F1, F2. exists e. split; reflexivity.
    + right. exists "ljpeg: bad Huffman code"%string.
      rewrite (decode_refuse counts Hc syms s_len s_bytes M t A ltac:(lia) s_le t_safe k p bs Hk R1 ltac:(lia) N).
      rewrite (decode_refuse counts Hc syms s_len s_bytes M (without_bigtable t) slow_ok ltac:(cbn [without_bigtable hprec]; lia) s_le slow_safe k q bs Hk R2 ltac:(lia) N).
      split; reflexivity.
Qed.
Lemma new_fast_slow : forall k buf pad n m, k <> LSB -> readable k buf -> (m <= 32)%nat ->
  (33 * n + 33 <= length (stream k buf pad))%nat ->
  read_diffs k t buf n m = read_diffs k (without_bigtable t) buf n m.
Proof.
  intros k buf pad n m Hk Hb Hm HL. unfold read_diffs. pose proof (Repr_new k buf pad Hb) as R.
  destruct (diffs_agree k Hk n _ _ _ R R HL) as [[vs [p' [q' [bs' [F1 [F2 [F3 [F4 F5]]]]]]]]|[e [F1 F2]]].
  - rewrite F1, F2. cbn [bind].
    destruct (tail_bits M k p' bs' m Hk F3 Hm ltac:(lia)) as [? E1].
    destruct (tail_bits M k q' bs' m Hk F4 Hm ltac:(lia)) as [? E2]. rewrite E1, E2. reflexivity.
  - rewrite F1, F2. reflexivity.
Qed.

(** ** Coding a list of differences and reading it back *)
Definition diff_fits (index : nat -> nat) (d : Z) : Prop := -32768 <= d <= 32767 /\
  (index (category d) < length ls)%nat /\ nth (index (category d)) syms 0 = Z.of_nat (category d) /\
  decodable prec ls (index (category d)).
Definition is_coder (u : hufftable) : Prop := u = t \/ u = without_bigtable t.
Lemma coder_ok : forall u, is_coder u -> table_ok bits (padded syms) u /\ hprec u = prec /\ hdng u = dng /\ shortcut_safe counts syms M u.
Proof.
  destruct t_built as [A [B [C [D E]]]].
  intros u [E1 | E1]; subst u; [split; [assumption|]; split; [assumption|]; split; [assumption|apply t_safe]|].
  split; [apply slow_ok|]. split; [exact B|]. split; [exact C|]. apply slow_safe.
Qed.
Lemma diffs_ok : forall u k index ds p rest, is_coder u -> k <> LSB -> (32 <= length rest)%nat ->
  Forall (diff_fits index) ds -> Repr k p (flat_map (encode_diff ls index) ds ++ rest) ->
  exists p', times (huff_decode k u) (length ds) p = Ok (ds, p') /\ Repr k p' rest.
Proof.
  intros u k index ds p rest Hu Hk Hr. destruct (coder_ok u Hu) as [A [B [C D]]].
  revert p. induction ds as [|d ds IH]; intros p HF R.
  - exists p. split; [reflexivity|exact R].
  - destruct (Forall_inv HF) as [H1 [H2 [H3 H4]]]. pose proof (Forall_inv_tail HF) as HF'. cbn [length times flat_map] in *. rewrite <- app_assoc in R.
    unfold encode_diff at 1 in R. set (j := index (category d)) in *.
    destruct (category_range d H1) as [CR1 CR2]. destruct (difference_extra d) as [X1 X2].
    set (tl := flat_map (encode_diff ls index) ds ++ rest) in *.
    rewrite <- app_assoc in R. set (ex := (if (category d =? 16)%nat then [] else binary (category d) (extra d)) ++ tl) in *.
    destruct (hit_word counts Hc j (codeword ls j ++ ex) H2) as [n [i [Hh [Ej El]]]].
    { rewrite <- (codeword_length counts j) at 1. apply firstn_pre. }
    pose proof Hh as [Hn [_ [Hi _]]].
    assert (RR : reachable bits u n).
    { eapply (usable_reachable counts Hc syms s_len M u); [exact Hn|exact Hi|exact Ej|]. unfold usable. rewrite B. exact H4. }
    assert (EV : znth (syms ++ repeat 0 (256 - length syms)) (Fn bits n + i) = Z.of_nat (category d)).
    { rewrite <- Ej. rewrite (hval_at counts syms s_len j H2). exact H3. }
    assert (LW : length (codeword ls j) = S n) by (rewrite codeword_length; assumption).
    assert (LT : (32 <= length tl)%nat) by (unfold tl; rewrite app_length; lia).
    assert (LX : length ex = ((if category d =? 16 then 0 else category d) + length tl)%nat).
    { unfold ex. rewrite app_length. destruct (category d =? 16)%nat; [reflexivity|]. rewrite binary_zbits, zbits_length. reflexivity. }
    assert (Dno : category d = 16%nat -> hdng u = false).
    { intros C16. rewrite C. destruct dng; [|reflexivity]. exfalso. apply (Hdng eq_refl).
      rewrite C16 in H3. change (Z.of_nat 16) with 16 in H3. rewrite <- H3. apply nth_In. rewrite s_len. assumption. }
    assert (US : used u n (Z.of_nat (category d)) = (S n + if category d =? 16 then 0 else category d)%nat).
    { unfold used. destruct (category d =? 16)%nat eqn:E16.
      - replace (Z.of_nat (category d) =? 16) with true by lia. rewrite Dno by lia. reflexivity.
      - replace (Z.of_nat (category d) =? 16) with false by lia. lia. }
    destruct (decode_hit counts Hc syms s_len s_bytes M u A ltac:(lia) s_le D k p _ n i Hk R Hh RR) as [p1 [E1 R1]].
    { rewrite app_length. lia. } { rewrite EV, US, app_length. lia. } { intros _. rewrite app_length. lia. }
    rewrite EV in E1, R1. rewrite US in R1.
    assert (EM : meaning (codeword ls j ++ ex) n (Z.of_nat (category d)) = d).
    { unfold meaning. destruct (category d =? 16)%nat eqn:E16.
      - replace (Z.of_nat (category d) =? 16) with true by lia. symmetry. apply CR2. lia.
      - replace (Z.of_nat (category d) =? 16) with false by lia. rewrite Nat2Z.id.
        rewrite <- LW, skipn_pre. unfold ex. rewrite binary_zbits.
        rewrite <- (zbits_length (category d) (extra d)) at 2.
        rewrite firstn_pre, number_zbits, Z.mod_small by assumption. exact X2. }
    rewrite EM in E1. rewrite E1. cbn [bind].
    assert (ES : skipn (S n + (if category d =? 16 then 0 else category d))%nat (codeword ls j ++ ex) = tl).
    { rewrite <- skipn_skipn', <- LW, skipn_pre. unfold ex. destruct (category d =? 16)%nat; [reflexivity|].
      rewrite binary_zbits. rewrite <- (zbits_length (category d) (extra d)) at 1. apply skipn_pre. }
    rewrite ES in R1. destruct (IH p1 HF' R1) as [p2 [E2 R2]]. rewrite E2. cbn [bind].
    exists p2. split; [reflexivity|assumption].
Qed.
Lemma new_diffs : forall u k index ds buf pad rest m, is_coder u -> k <> LSB -> readable k buf ->
  stream k buf pad = flat_map (encode_diff ls index) ds ++ rest -> (32 <= length rest)%nat -> (m <= 32)%nat ->
  Forall (diff_fits index) ds ->
  read_diffs k u buf (length ds) m = Ok (ds, number (firstn m rest)).
Proof.
  intros u k index ds buf pad rest m Hu Hk Hb Es HL Hm HF. unfold read_diffs.
  pose proof (Repr_new k buf pad Hb) as R. rewrite Es in R.
  destruct (diffs_ok u k index ds _ rest Hu Hk HL HF R) as [p1 [E1 R1]]. rewrite E1. cbn [bind].
  destruct (tail_bits M k p1 rest m Hk R1 Hm ltac:(lia)) as [? E2]. rewrite E2. reflexivity.
Qed.
End New.

Lemma new_builds : forall {M : Mode} counts syms prec dng, code_table counts -> symbols_for counts syms -> 0 <= prec <= 16 ->
  (debug = true -> not_full counts) ->
  (prec < 16 \/ nth 15 counts 0 = 0 \/ 65528 < space 16 (lengths counts) \/
   Z.of_nat (length syms) + 65528 - space 16 (lengths counts) <= 255) ->
  exists t, huff_new (0 :: counts) (padded syms) prec dng = Ok t.
Proof.
  intros M counts syms prec dng Hc Hs Hp Hf HB. rewrite new_initialize.
  apply (can_build counts Hc syms (proj1 Hs) (s_bytes counts syms Hs) M Hf); try reflexivity.
  - exact Hp.
  - apply (s_le counts syms Hs).
  - intros P16 C16. cbn [hprec] in P16.
    rewrite <- (space_lens counts Hc 16), (lens_16 counts Hc), (hnumber counts Hc). rewrite <- (proj1 Hs).
    destruct HB as [B|[B|[B|B]]]; [lia| |left; exact B|right; lia].
    destruct (cn_S counts Hc 15 ltac:(lia)) as [c [E1 E2]]. rewrite (nth_error_nth _ _ 0 E1) in B. lia.
Qed.

Lemma prefix_free : forall counts j j', code_table counts -> (j < length (lengths counts))%nat -> (j' < length (lengths counts))%nat ->
  (exists r, codeword (lengths counts) j' = codeword (lengths counts) j ++ r) -> j = j'.
Proof.
  intros counts j j' Hc Hj Hj' [r E].
  destruct (hit_word counts Hc j (codeword (lengths counts) j') Hj) as [n [i [H1 [E1 _]]]].
  { rewrite E, <- (codeword_length counts j) at 1. apply firstn_pre. }
  destruct (hit_word counts Hc j' (codeword (lengths counts) j') Hj') as [n' [i' [H2 [E2 _]]]].
  { rewrite <- (codeword_length counts j') at 1. apply firstn_all. }
  destruct (hit_unique (0 :: counts) (hpos counts Hc) _ _ _ _ _ H1 H2) as [-> ->]. lia.
Qed.
