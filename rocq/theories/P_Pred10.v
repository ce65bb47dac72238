(** Proofs about predictive formats: Phase One. *)
From Coq Require Import String ZArith List Bool Lia ZifyBool ZifyNat.
From Verif Require Import Base Bytes Pumps Huffman Packed Threads Dec_Pred Spec_Bits Spec_Pump Spec_Stream Spec_Image Spec_Huffman Spec_Ljpeg Spec_Phase
  P_Base P_Bits P_Threads P_Pumps P_Huff1 P_Huff4 P_Huff5 P_Ljpeg1 P_Pred1.
Import ListNotations.
Local Open Scope Z_scope.
Ltac Zify.zify_post_hook ::= Z.div_mod_to_equations.

(** Reading a number of [n] bits. *)
Lemma word_read : forall {M : Mode} k n v p tail, k <> LSB -> (n <= 32)%nat -> 0 <= v < 2 ^ Z.of_nat n -> Repr k p (binary n v ++ tail) ->
  exists p', get_bits k p (Z.of_nat n) = Ok (v, p') /\ Repr k p' tail.
Proof.
  intros M k n v p tail Hk Hn Hv R.
  assert (Lb : length (binary n v) = n) by (rewrite binary_zbits, zbits_length; reflexivity).
  destruct (get_bits_ok k p _ n R Hn ltac:(rewrite app_length; lia)) as [p2 [E2 R2]].
  rewrite <- Lb in R2 at 1. rewrite skipn_pre in R2. exists p2. split; [|exact R2]. rewrite E2. do 2 f_equal.
  replace (value_of k (firstn n (binary n v ++ tail))) with (number (firstn n (binary n v ++ tail))) by (destruct k; [congruence|reflexivity..]).
  rewrite <- Lb at 1. rewrite firstn_pre, binary_zbits, number_zbits, Z.mod_small by assumption. reflexivity.
Qed.
Lemma bit_read : forall {M : Mode} k (b : bool) p tail, k <> LSB -> Repr k p (b :: tail) ->
  exists p', get_bits k p 1 = Ok (Z.b2z b, p') /\ Repr k p' tail.
Proof.
  intros M k b p tail Hk R. apply (word_read k 1 (Z.b2z b) p tail Hk); [lia|destruct b; cbn; lia|].
  cbn [binary app Z.of_nat]. destruct b; exact R.
Qed.

Section Phase.
Context {M : Mode}.
Lemma zeros_read : forall n j k p tail, (k <= n)%nat -> Repr MSB32 p (repeat false k ++ (if (k <? n)%nat then [true] else []) ++ tail) ->
  exists p', iiq_zeros n j p = Ok (j + Z.of_nat k, p') /\ Repr MSB32 p' tail.
Proof.
  induction n as [|n IH]; intros j k p tail Hk R.
  - replace k with 0%nat in * by lia. exists p. split; [cbn; f_equal; f_equal; lia|exact R].
  - cbn [iiq_zeros]. destruct k as [|k]; cbn [repeat app] in R.
    + destruct (bit_read MSB32 true p tail ltac:(discriminate) R) as [p' [E R']]. rewrite E. cbn [bind Z.b2z Z.eqb]. exists p'. split; [f_equal; f_equal; lia|exact R'].
    + destruct (bit_read MSB32 false p _ ltac:(discriminate) R) as [p' [E R']]. rewrite E. cbn [bind Z.b2z Z.eqb].
      destruct (IH (j + 1) k p' tail ltac:(lia)) as [p2 [E2 R2]].
      * replace (S k <? S n)%nat with (k <? n)%nat in R' by lia. exact R'.
      * exists p2. split; [rewrite E2; f_equal; f_equal; lia|exact R2].
Qed.
Lemma len_read : forall c len p tail, (forall i, c = Some i -> (i < 10)%nat) -> Repr MSB32 p (phase_selector c ++ tail) ->
  exists p', iiq_len len p = Ok (match c with Some i => nth i phase_lengths 0 | None => len end, p') /\ Repr MSB32 p' tail.
Proof.
  intros c len p tail Hc R. unfold iiq_len. destruct c as [i|]; cbn [phase_selector] in R.
  - specialize (Hc i eq_refl). rewrite <- !app_assoc in R.
    destruct (zeros_read 5 0 (S (i / 2)) p ([Nat.odd i] ++ tail)) as [p1 [E1 R1]].
    + assert (i / 2 < 5)%nat by (apply Nat.div_lt_upper_bound; lia). lia.
    + replace (S (i / 2) <? 5)%nat with (i / 2 <? 4)%nat by lia. exact R.
    + rewrite E1. cbn [bind]. replace (0 <? 0 + Z.of_nat (S (i / 2))) with true by lia.
      destruct (bit_read MSB32 (Nat.odd i) p1 tail ltac:(discriminate) R1) as [p2 [E2 R2]]. rewrite E2. cbn [bind].
      exists p2. split; [|exact R2].
      assert (E : get iiq_lens ((0 + Z.of_nat (S (i / 2)) - 1) * 2 + Z.b2z (Nat.odd i)) = Ok (nth i phase_lengths 0)).
      { clear - Hc. do 10 (destruct i as [|i]; [reflexivity|]). lia. }
      rewrite E. reflexivity.
  - destruct (zeros_read 5 0 0 p tail ltac:(lia) R) as [p1 [E1 R1]]. rewrite E1. cbn [bind]. exists p1. split; [reflexivity|exact R1].
Qed.
Lemma pred_read : forall len v before p tail, (len = 14 \/ 5 <= len <= 13 /\ - 2 ^ (len - 1) < v - before <= 2 ^ (len - 1)) ->
  sample v -> sample before -> Repr MSB32 p (phase_word len v before ++ tail) ->
  exists p', iiq_pred len before p = Ok (v, p') /\ Repr MSB32 p' tail.
Proof.
  intros len v before p tail Hl Hv Hb R. unfold iiq_pred, phase_word, sample in *. destruct (len =? 14) eqn:E.
  - apply (word_read MSB32 16 v p tail); [discriminate|lia|cbn; lia|exact R].
  - assert (Hlen : 5 <= len <= 13) by lia. assert (Hd : - 2 ^ (len - 1) < v - before <= 2 ^ (len - 1)) by lia. clear Hl.
    assert (Hp : 2 ^ len = 2 * 2 ^ (len - 1)) by (rewrite <- Z.pow_succ_r by lia; f_equal; lia).
    assert (Hq : 0 < 2 ^ (len - 1) <= 4096) by (split; [apply Z.pow_pos_nonneg; lia|change 4096 with (2 ^ 12); apply Z.pow_le_mono_r; lia]).
    destruct (word_read MSB32 (Z.to_nat len) (v - before + 2 ^ (len - 1) - 1) p tail) as [p' [E1 R1]]; [discriminate|lia|rewrite Z2Nat.id by lia; lia|exact R|].
    rewrite Z2Nat.id in E1 by lia. rewrite E1. cbn [bind]. unfold u32add, u32sub.
    repeat (rewrite arith_u_ok by (change (2 ^ 32) with 4294967296; lia); cbn [bind]).
    assert (Es : shl_u 32 1 (len - 1) = Ok (2 ^ (len - 1))).
    { clear - Hlen. assert (len = 5 \/ len = 6 \/ len = 7 \/ len = 8 \/ len = 9 \/ len = 10 \/ len = 11 \/ len = 12 \/ len = 13) as [-> |[-> |[-> |[-> |[-> |[-> |[-> |[-> | ->]]]]]]]] by lia; destruct M; reflexivity. }
    rewrite Es. cbn [bind]. rewrite arith_u_ok by (change (2 ^ 32) with 4294967296; lia). cbn [bind].
    exists p'. split; [f_equal; f_equal; lia|exact R1].
Qed.

Section Row.
Variables (choice : Z -> Z -> nat -> option nat) (pic : Z -> Z -> Z) (w r : Z).
Hypothesis Hw : 0 < w < 2 ^ 32.
Hypothesis Hp : phase_possible choice pic w r.
Notation len c := (phase_bits choice w r c).
Notation full := (w - w mod 8).

Lemma mask8 : w &&& 0xfffffff8 = full.
Proof.
  change 0xfffffff8 with (Z.ldiff (Z.ones 32) (Z.ones 3)).
  replace (w &&& Z.ldiff (Z.ones 32) (Z.ones 3)) with (Z.ldiff (w &&& Z.ones 32) (Z.ones 3)).
  - rewrite Z.land_ones by lia. rewrite Z.mod_small by lia. rewrite Z.ldiff_ones_r, Z.shiftl_mul_pow2, Z.shiftr_div_pow2 by lia. change (2 ^ 3) with 8. lia.
  - apply Z.bits_inj'. intros n Hn. rewrite Z.ldiff_spec, !Z.land_spec, Z.ldiff_spec. destruct (Z.testbit w n), (Z.testbit (Z.ones 32) n), (Z.testbit (Z.ones 3) n); reflexivity.
Qed.
Lemma length_ok : forall j g, phase_length (choice r j) g = 14 \/ 5 <= phase_length (choice r j) g <= 13.
Proof.
  destruct Hp as [H1 [H2 _]]. intros j. induction g as [|g IH]; cbn [phase_length].
  - destruct (choice r j 0%nat) as [i|] eqn:E; [|exfalso; exact (H2 j E)]. specialize (H1 j 0%nat i E).
    do 10 (destruct i as [|i]; [cbn; lia|]). lia.
  - destruct (choice r j (S g)) as [i|] eqn:E; [|exact IH]. specialize (H1 j (S g) i E). do 10 (destruct i as [|i]; [cbn; lia|]). lia.
Qed.
(** The length in use before column [c]. *)
Definition before_len (j c : Z) (l : Z) : Prop :=
  c < full -> (c mod 8 = 0 -> 0 < c -> l = phase_length (choice r j) (Z.to_nat (c / 8 - 1))) /\ (c mod 8 <> 0 -> l = phase_length (choice r j) (Z.to_nat (c / 8))).
Lemma lens_read : forall c l0 l1 p tail, 0 <= c < w -> before_len 0 c l0 -> before_len 1 c l1 ->
  Repr MSB32 p ((if (c mod 8 =? 0) && (c <? full) then phase_selector (choice r 0 (Z.to_nat (c / 8))) ++ phase_selector (choice r 1 (Z.to_nat (c / 8))) else []) ++ tail) ->
  exists p' m0 m1, (if w &&& 0xfffffff8 <=? c then Ok (p, 14, 14)
     else if c &&& 7 =? 0 then '(l0, p) <- iiq_len l0 p ;; '(l1, p) <- iiq_len l1 p ;; Ok (p, l0, l1)
     else Ok (p, l0, l1)) = Ok (p', m0, m1) /\ Repr MSB32 p' tail /\ before_len 0 (c + 1) m0 /\ before_len 1 (c + 1) m1 /\
     (if c mod 2 =? 0 then m0 else m1) = len c.
Proof.
  intros c l0 l1 p tail Hc B0 B1 R. rewrite mask8. destruct Hp as [Hi [Hn _]]. destruct (full <=? c) eqn:E.
  - replace (c <? full) with false in R by lia. rewrite andb_false_r in R. exists p, 14, 14. split; [reflexivity|]. split; [exact R|].
    split; [intros X; lia|]. split; [intros X; lia|]. unfold phase_bits. rewrite E. destruct (c mod 2 =? 0); reflexivity.
  - replace (c <? full) with true in R by lia. rewrite andb_true_r in R.
    change 7 with (Z.ones 3). rewrite Z.land_ones by lia. change (2 ^ 3) with 8.
    assert (Lc : len c = phase_length (choice r (c mod 2)) (Z.to_nat (c / 8))) by (unfold phase_bits; rewrite E; reflexivity).
    assert (Next : forall j l, l = phase_length (choice r j) (Z.to_nat (c / 8)) -> before_len j (c + 1) l).
    { intros j l ->. intros X. split; intros Y; [intros _|]; do 2 f_equal; lia. }
    destruct (c mod 8 =? 0) eqn:E8.
    + rewrite <- app_assoc in R.
      destruct (len_read (choice r 0 (Z.to_nat (c / 8))) l0 p _ (Hi 0 (Z.to_nat (c / 8))) R) as [p1 [E1 R1]]. rewrite E1. cbn [bind].
      destruct (len_read (choice r 1 (Z.to_nat (c / 8))) l1 p1 _ (Hi 1 (Z.to_nat (c / 8))) R1) as [p2 [E2 R2]]. rewrite E2. cbn [bind].
      assert (K : forall j l, before_len j c l -> match choice r j (Z.to_nat (c / 8)) with Some i => nth i phase_lengths 0 | None => l end = phase_length (choice r j) (Z.to_nat (c / 8))).
      { intros j l B. destruct (B ltac:(lia)) as [B' _]. specialize (B' ltac:(lia)).
        destruct (choice r j (Z.to_nat (c / 8))) as [i|] eqn:Ec.
        - destruct (Z.to_nat (c / 8)); cbn [phase_length]; rewrite Ec; reflexivity.
        - assert (0 < c). { destruct (Z.eq_dec c 0) as [-> |]; [|lia]. exfalso. exact (Hn j Ec). }
          rewrite B' by lia. replace (Z.to_nat (c / 8)) with (S (Z.to_nat (c / 8 - 1))) in Ec |- * by lia. cbn [phase_length]. rewrite Ec. reflexivity. }
      eexists _, _, _. split; [reflexivity|]. split; [exact R2|]. rewrite (K 0 l0 B0), (K 1 l1 B1). split; [apply Next; reflexivity|]. split; [apply Next; reflexivity|].
      rewrite Lc. assert (c mod 2 = 0 \/ c mod 2 = 1) as [-> | ->] by lia; reflexivity.
    + destruct (B0 ltac:(lia)) as [_ B0']. destruct (B1 ltac:(lia)) as [_ B1']. specialize (B0' ltac:(lia)). specialize (B1' ltac:(lia)).
      exists p, l0, l1. split; [reflexivity|]. split; [exact R|]. split; [apply Next; exact B0'|]. split; [apply Next; exact B1'|].
      rewrite Lc. assert (c mod 2 = 0 \/ c mod 2 = 1) as [-> | ->] by lia; assumption.
Qed.

Lemma line_ok : forall n c p p0 p1 l0 l1 rest, 0 <= c -> c + Z.of_nat n = w ->
  (if c mod 2 =? 0 then p0 else p1) = phase_before pic r c -> (if c mod 2 =? 0 then p1 else p0) = phase_before pic r (c + 1) ->
  before_len 0 c l0 -> before_len 1 c l1 -> Repr MSB32 p (flat_map (phase_pixel choice pic w r) (zrange c w) ++ rest) ->
  exists line, iiq_line n w c (p, (p0, p1), (l0, l1)) = Ok line /\ zlen line = Z.of_nat n /\ forall i, 0 <= i < Z.of_nat n -> znth line i = pic r (c + i).
Proof.
  induction n as [|n IH]; intros c p p0 p1 l0 l1 rest Hc Hn P0 P1 B0 B1 R.
  - exists []. split; [reflexivity|]. split; [reflexivity|]. intros; lia.
  - cbn [iiq_line]. unfold iiq_pixel. rewrite (zrange_cons c) in R by lia. cbn [flat_map] in R. unfold phase_pixel at 1 in R. rewrite <- !app_assoc in R.
    destruct (lens_read c l0 l1 p _ ltac:(lia) B0 B1 R) as [p' [m0 [m1 [E [R1 [B0' [B1' Em]]]]]]]. rewrite E. cbn [bind]. clear E.
    rewrite land1.
    assert (Hs : sample (pic r c)) by (apply Hp; lia).
    assert (Hb : sample (phase_before pic r c)) by (unfold phase_before; destruct (c <? 2) eqn:Q; [unfold sample; lia|apply Hp; lia]).
    assert (Hl : len c = 14 \/ 5 <= len c <= 13 /\ - 2 ^ (len c - 1) < pic r c - phase_before pic r c <= 2 ^ (len c - 1)).
    { destruct Hp as [_ [_ H]]. destruct (H c ltac:(lia)) as [_ [X|X]]; [left; exact X|].
      assert (len c = 14 \/ 5 <= len c <= 13) as [Y|Y]; [|left; exact Y|right; split; [exact Y|exact X]].
      unfold phase_bits. destruct (full <=? c); [left; reflexivity|apply length_ok]. }
    destruct (pred_read (len c) (pic r c) (phase_before pic r c) p' _ Hl Hs Hb R1) as [p2 [E2 R2]].
    assert (N1 : pic r c = phase_before pic r (c + 2)) by (unfold phase_before; replace (c + 2 <? 2) with false by lia; f_equal; lia).
    destruct (c mod 2 =? 0) eqn:E.
    + rewrite Em, P0, E2. cbn [bind]. rewrite as_u16_sample by exact Hs.
      destruct (IH (c + 1) p2 (pic r c) p1 m0 m1 rest) as [line [El [Ll V]]].
      * lia.
      * lia.
      * replace ((c + 1) mod 2 =? 0) with false by lia. exact P1.
      * replace ((c + 1) mod 2 =? 0) with false by lia. rewrite N1. f_equal. lia.
      * exact B0'.
      * exact B1'.
      * exact R2.
      * rewrite <- Em. rewrite El. cbn [bind]. eexists. split; [reflexivity|]. split; [rewrite zlen_cons; lia|]. intros i Hi.
        destruct (i =? 0) eqn:Q; [replace i with 0 by lia; rewrite Z.add_0_r; reflexivity|]. rewrite znth_cons_S by lia. rewrite V by lia. f_equal. lia.
    + rewrite Em, P0, E2. cbn [bind]. rewrite as_u16_sample by exact Hs.
      destruct (IH (c + 1) p2 p0 (pic r c) m0 m1 rest) as [line [El [Ll V]]].
      * lia.
      * lia.
      * replace ((c + 1) mod 2 =? 0) with true by lia. exact P1.
      * replace ((c + 1) mod 2 =? 0) with true by lia. rewrite N1. f_equal. lia.
      * exact B0'.
      * exact B1'.
      * exact R2.
      * rewrite <- Em. rewrite El. cbn [bind]. eexists. split; [reflexivity|]. split; [rewrite zlen_cons; lia|]. intros i Hi.
        destruct (i =? 0) eqn:Q; [replace i with 0 by lia; rewrite Z.add_0_r; reflexivity|]. rewrite znth_cons_S by lia. rewrite V by lia. f_equal. lia.
Qed.
End Row.

Theorem phase_ok : forall buf data strip w h choice pic rest, bytes buf -> 0 < w < 2 ^ 32 -> 0 <= h -> 0 <= data -> 0 <= strip ->
  strip + 4 * h <= Z.of_nat (length buf) ->
  (forall r, 0 <= r < h -> phase_possible choice pic w r /\
    let pos := data + little_endian_value (firstn 4 (skipn (Z.to_nat (strip + 4 * r)) buf)) in
    pos <= Z.of_nat (length buf) /\
    stream MSB32 (skipn (Z.to_nat pos) buf) 0 = phase_row choice pic w r ++ rest r) ->
  exists out, iiq_decompress buf data strip w h = Ok out /\ is_image out w h pic.
Proof.
  intros buf data strip w h choice pic rest Hb Hw Hh Hd Hst Hl H. unfold iiq_decompress. apply decode_threaded_image; [lia|exact Hh|].
  intros r Hr. destruct (H r Hr) as [Hp [Hpos Es]]. cbv zeta in *.
  rewrite LEu32_spec by (first [exact Hb|unfold zlen; lia]). cbn [bind]. unfold sub_list.
  replace (strip + r * 4) with (strip + 4 * r) by lia.
  set (o := little_endian_value (firstn 4 (skipn (Z.to_nat (strip + 4 * r)) buf))) in *.
  assert (Ho : 0 <= o). { apply little_endian_value_range. apply Forall_firstn, Forall_skipn. exact Hb. }
  rewrite slice_from_ok by (unfold zlen; lia). cbn [bind].
  pose proof (Repr_new MSB32 (skipn (Z.to_nat (data + o)) buf) 0 ltac:(split; [apply Forall_skipn; exact Hb|discriminate])) as R.
  rewrite Es in R. unfold phase_row in R. rewrite upto_zrange in R.
  destruct (line_ok choice pic w r Hw Hp (length (zeros w)) 0 (pump_new (skipn (Z.to_nat (data + o)) buf)) 0 0 0 0 (rest r)) as [line [E [L V]]].
  - lia.
  - change (Z.of_nat (length (zeros w))) with (zlen (zeros w)). rewrite zlen_zeros; lia.
  - reflexivity.
  - reflexivity.
  - intros _. split; intros; lia.
  - intros _. split; intros; lia.
  - exact R.
  - change (Z.of_nat (length (zeros w))) with (zlen (zeros w)) in L, V. rewrite zlen_zeros in L, V by lia. exists line. split; [exact E|]. split; [lia|]. intros c Hc. rewrite V by lia. reflexivity.
Qed.
End Phase.
