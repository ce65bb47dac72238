(** Proofs about Olympus: reading one difference. *)
From Coq Require Import String ZArith List Bool Lia ZifyBool ZifyNat.
From Verif Require Import Base Bytes Pumps Huffman Packed Threads Dec_Pred Spec_Bits Spec_Pump Spec_Stream Spec_Image Spec_Huffman Spec_Ljpeg Spec_Orf
  P_Base P_Bits P_Pumps P_Huff1 P_Huff4 P_Huff5 P_Ljpeg1 P_Pred1 P_Pred10.
Import ListNotations.
Local Open Scope Z_scope.
Ltac Zify.zify_post_hook ::= Z.div_mod_to_equations.

Lemma find_first : forall (f : Z -> bool) n a k, (k < n)%nat -> (forall j, (j < k)%nat -> f (a + Z.of_nat j) = false) -> f (a + Z.of_nat k) = true ->
  find f (zrange a (a + Z.of_nat n)) = Some (a + Z.of_nat k).
Proof.
  intros f. induction n as [|n IH]; intros a k Hk H0 H1; [lia|]. rewrite zrange_cons by lia. cbn [find]. destruct k as [|k].
  - rewrite Z.add_0_r in *. rewrite H1. reflexivity.
  - pose proof (H0 0%nat ltac:(lia)) as H. rewrite Z.add_0_r in H. rewrite H.
    replace (a + Z.of_nat (S n)) with (a + 1 + Z.of_nat n) by lia. rewrite IH with (k := k).
    + f_equal. lia.
    + lia.
    + intros j Hj. replace (a + 1 + Z.of_nat j) with (a + Z.of_nat (S j)) by lia. apply H0. lia.
    + replace (a + 1 + Z.of_nat k) with (a + Z.of_nat (S k)) by lia. exact H1.
Qed.
Lemma orf_high_ok : forall k t, (k + S (length t) = 12)%nat -> orf_high (number (repeat false k ++ true :: t)) = Z.of_nat k.
Proof.
  intros k t H. unfold orf_high. rewrite number_app, number_repeat_false. cbn [number Z.b2z]. pose proof (number_range t) as R. set (v := number t) in *.
  replace (find _ (zrange 0 12)) with (Some (0 + Z.of_nat k)); [lia|]. symmetry.
  apply (find_first (fun high => Z.testbit (0 * 2 ^ Z.of_nat (length (true :: t)) + (1 * 2 ^ Z.of_nat (length t) + v)) (11 - high)) 12 0 k); [lia| |].
  - intros j Hj. destruct (Z.eq_dec (0 * 2 ^ Z.of_nat (length (true :: t)) + (1 * 2 ^ Z.of_nat (length t) + v)) 0) as [-> |N]; [apply Z.bits_0|].
    apply Z.bits_above_log2; [lia|]. apply Z.log2_lt_pow2; [lia|].
    apply Z.lt_le_trans with (2 ^ Z.of_nat (S (length t))); [rewrite pow2_S; lia|apply Z.pow_le_mono_r; lia].
  - replace (11 - (0 + Z.of_nat k)) with (Z.of_nat (length t)) by lia. rewrite Z.mul_0_l, Z.add_0_l, Z.mul_1_l.
    apply Z.testbit_true; [lia|]. replace ((2 ^ Z.of_nat (length t) + v) / 2 ^ Z.of_nat (length t)) with 1; [reflexivity|].
    apply Z.div_unique with v; lia.
Qed.

Section Orf.
Context {M : Mode}.

Lemma bit_length_spec : forall m j, 0 <= m -> 0 <= j -> (0 <? m / 2 ^ j) = (j <? bit_length m).
Proof.
  intros m j Hm Hj. unfold bit_length. assert (0 < 2 ^ j) by (apply Z.pow_pos_nonneg; lia). destruct (m <=? 0) eqn:E.
  - assert (m = 0) as -> by lia. rewrite Z.div_0_l by lia. lia.
  - pose proof (Z.log2_spec m ltac:(lia)) as [L1 L2]. pose proof (Z.log2_nonneg m). destruct (j <? Z.log2 m + 1) eqn:F.
    + assert (2 ^ j <= 2 ^ Z.log2 m) by (apply Z.pow_le_mono_r; lia). assert (1 <= m / 2 ^ j) by (apply Z.div_le_lower_bound; lia). lia.
    + assert (2 ^ Z.succ (Z.log2 m) <= 2 ^ j) by (apply Z.pow_le_mono_r; lia). rewrite Z.div_small by lia. reflexivity.
Qed.
Lemma bit_length_bound : forall m, m < 2 ^ 15 -> 0 <= bit_length m <= 15.
Proof.
  intros m Hm. unfold bit_length. destruct (m <=? 0) eqn:E; [lia|]. pose proof (Z.log2_nonneg m).
  assert (Z.log2 m < 15) by (apply Z.log2_lt_pow2; lia). lia.
Qed.
Lemma nbits_ok : forall m i, 0 <= m < 2 ^ 15 -> 0 <= i -> forall fuel n, (0 <= n)%Z -> n + i <= 20 -> Z.max n (bit_length m - i) - n < Z.of_nat fuel ->
  orf_nbits fuel m i n = Ok (Z.max n (bit_length m - i)).
Proof.
  intros m i Hm Hi. pose proof (bit_length_bound m ltac:(lia)) as B. induction fuel as [|fuel IH]; intros n Hn Hni Hf; [lia|]. cbn [orf_nbits].
  unfold shamt. replace ((0 <=? n + i) && (n + i <? 32)) with true by lia. cbn [bind].
  assert (E : Z.shiftr m (n + i) &&& 65535 = m / 2 ^ (n + i)).
  { change 65535 with (Z.ones 16). rewrite Z.land_ones by lia. rewrite Z.shiftr_div_pow2 by lia. apply Z.mod_small.
    assert (0 < 2 ^ (n + i)) by (apply Z.pow_pos_nonneg; lia). split; [apply Z.div_pos; lia|]. apply Z.div_lt_upper_bound; [lia|].
    change (2 ^ 16) with 65536. change (2 ^ 15) with 32768 in Hm. nia. }
  rewrite E, bit_length_spec by lia. destruct (n + i <? bit_length m) eqn:F.
  - rewrite IH by lia. f_equal. lia.
  - f_equal. lia.
Qed.

Lemma as_i32_small : forall v, - 2 ^ 31 <= v < 2 ^ 31 -> as_i32 v = v.
Proof. intros v H. unfold as_i32. apply swrap_small. lia. exact H. Qed.
Lemma word_readi : forall n v p tail, (n <= 31)%nat -> 0 <= v < 2 ^ Z.of_nat n -> Repr MSB p (binary n v ++ tail) ->
  exists p', get_ibits MSB p (Z.of_nat n) = Ok (v, p') /\ Repr MSB p' tail.
Proof.
  intros n v p tail Hn Hv R. destruct (word_read MSB n v p tail ltac:(discriminate) ltac:(lia) Hv R) as [p' [E R']].
  unfold get_ibits. rewrite E. cbn [bind]. exists p'. split; [|exact R'].
  rewrite as_i32_small; [reflexivity|]. assert (2 ^ Z.of_nat n <= 2 ^ 31) by (apply Z.pow_le_mono_r; lia). lia.
Qed.

(** The first fifteen bits. *)
Lemma fifteen : forall (s : bool) low z tail p, 0 <= low < 4 -> Repr MSB p (s :: binary 2 low ++ z ++ tail) -> (12 <= length (z ++ tail))%nat ->
  exists p', peek_ibits MSB p 15 = Ok (Z.b2z s * 2 ^ 14 + low * 2 ^ 12 + number (firstn 12 (z ++ tail)), p') /\
    Repr MSB p' (s :: binary 2 low ++ z ++ tail) /\ 15 <= pnbits p'.
Proof.
  intros s low z tail p Hl R Hz. destruct (msb_peek_ok MSB p _ 15 (or_introl eq_refl) R ltac:(lia)) as [p' [E [R' N]]].
  { cbn [length]. rewrite app_length. change (length (binary 2 low)) with 2%nat. lia. }
  exists p'. split; [|split; [exact R'|exact N]]. unfold peek_ibits. change 15 with (Z.of_nat 15). rewrite E. cbn [bind]. f_equal. f_equal.
  change (firstn 15 (s :: binary 2 low ++ z ++ tail)) with (s :: Z.testbit low 1 :: Z.testbit low 0 :: firstn 12 (z ++ tail)).
  assert (L : length (firstn 12 (z ++ tail)) = 12%nat) by (rewrite firstn_length; lia).
  pose proof (number_range (firstn 12 (z ++ tail))) as Rg. rewrite L in Rg. change (2 ^ Z.of_nat 12) with 4096 in Rg.
  set (q := firstn 12 (z ++ tail)) in *. cbn [number length]. rewrite L.
  assert (E2 : Z.b2z (Z.testbit low 1) * 2 + Z.b2z (Z.testbit low 0) = low) by (clear - Hl; assert (low = 0 \/ low = 1 \/ low = 2 \/ low = 3) as [-> |[-> |[-> | ->]]] by lia; reflexivity).
  change (2 ^ Z.of_nat 14) with 16384. change (2 ^ Z.of_nat 13) with 8192. change (2 ^ Z.of_nat 12) with 4096. change (2 ^ 14) with 16384. change (2 ^ 12) with 4096.
  rewrite as_i32_small; [lia|]. destruct s, (Z.testbit low 1), (Z.testbit low 0); cbn [Z.b2z]; lia.
Qed.

Lemma lor_split : forall a b k, 0 <= k -> 0 <= b < 2 ^ k -> Z.lor (Z.shiftl a k) b = a * 2 ^ k + b.
Proof.
  intros a b k Hk Hb. rewrite <- Z.shiftl_mul_pow2 by exact Hk. symmetry.
  assert (L : Z.land (Z.shiftl a k) b = 0).
  { apply Z.bits_inj'. intros j Hj. rewrite Z.land_spec, Z.bits_0. destruct (Z.lt_ge_cases j k) as [H|H].
    - rewrite Z.shiftl_spec_low by exact H. reflexivity.
    - replace (Z.testbit b j) with false; [apply andb_false_r|]. symmetry. destruct (Z.eq_dec b 0) as [-> |N]; [apply Z.bits_0|].
      apply Z.bits_above_log2; [lia|]. apply Z.log2_lt_pow2; [lia|]. apply Z.lt_le_trans with (2 ^ k); [lia|apply Z.pow_le_mono_r; lia]. }
  rewrite Z.add_nocarry_lxor by exact L. apply Z.lxor_lor. exact L.
Qed.

Lemma diff_read : forall before mean calm e p tail, 0 <= before < 2 ^ 15 -> - 2 ^ 15 <= mean <= 2 ^ 15 -> 0 <= calm < 2 ^ 31 - 1 -> - 2 ^ 18 <= e < 2 ^ 18 ->
  let m := orf_distance mean e in m < 2 ^ 15 -> (15 <= length tail)%nat -> Repr MSB p (orf_word before mean calm e ++ tail) ->
  exists p', orf_diff before mean calm p = Ok (e / 4, e mod 4, (m, (3 * (e / 4) + mean) / 32, if 16 <? m then 0 else calm + 1), p') /\ Repr MSB p' tail.
Proof.
  intros before mean calm e p tail Hb Hmean Hc He m Hm Ht R. unfold orf_diff. set (i := if calm <? 3 then 2 else 0).
  assert (Hi : 0 <= i <= 2) by (unfold i; destruct (calm <? 3); lia). pose proof (bit_length_bound before ltac:(lia)) as Bl.
  rewrite nbits_ok by lia. cbn [bind]. fold i in R. unfold orf_word in R. fold m in R. set (k := orf_length before calm) in *.
  assert (Ek : Z.min (Z.max (2 + i) (bit_length before - i)) 16 = k) by (unfold k, orf_length; fold i; lia).
  rewrite Ek. assert (Hk : 2 <= k <= 15) by (rewrite <- Ek; lia). clearbody k.
  assert (Pk : 0 < 2 ^ k) by (apply Z.pow_pos_nonneg; lia).
  assert (M0 : 0 <= m) by (unfold m, orf_distance; destruct (e / 4 - mean <? 0) eqn:E; lia).
  set (high := m / 2 ^ k) in *. assert (Hh : 0 <= high) by (apply Z.div_pos; lia).
  assert (Hr : 0 <= m mod 2 ^ k < 2 ^ k) by (apply Z.mod_pos_bound; lia).
  assert (Em : high * 2 ^ k + m mod 2 ^ k = m) by (pose proof (Z.div_mod m (2 ^ k) ltac:(lia)) as H; fold high in H; lia).
  set (s := e / 4 - mean <? 0) in *. cbn [app] in R. rewrite <- !app_assoc in R.
  set (body := if high <? 12 then repeat false (Z.to_nat high) ++ [true] else repeat false 12 ++ binary (Z.to_nat (16 - k)) (2 * high)) in *.
  destruct (fifteen s (e mod 4) body (binary (Z.to_nat k) (m mod 2 ^ k) ++ tail) p ltac:(lia) R) as [p1 [E1 [R1 N1]]]; [rewrite !app_length; lia|].
  rewrite E1. cbn [bind]. change (2 ^ 14) with 16384. change (2 ^ 12) with 4096.
  set (q := number (firstn 12 (body ++ binary (Z.to_nat k) (m mod 2 ^ k) ++ tail))) in *.
  assert (Hq : 0 <= q < 4096).
  { pose proof (number_range (firstn 12 (body ++ binary (Z.to_nat k) (m mod 2 ^ k) ++ tail))) as H. fold q in H. rewrite firstn_length in H.
    assert (2 ^ Z.of_nat (Nat.min 12 (length (body ++ binary (Z.to_nat k) (m mod 2 ^ k) ++ tail))) <= 2 ^ 12) by (apply Z.pow_le_mono_r; lia).
    change (2 ^ 12) with 4096 in *. lia. }
  set (b := Z.b2z s * 16384 + e mod 4 * 4096 + q). assert (Hs : 0 <= Z.b2z s <= 1) by (destruct s; cbn; lia).
  assert (Eb1 : b >>> 14 = Z.b2z s) by (rewrite Z.shiftr_div_pow2 by lia; change (2 ^ 14) with 16384; unfold b; lia).
  assert (Eb2 : b >>> 12 &&& 3 = e mod 4) by (rewrite Z.shiftr_div_pow2 by lia; change 3 with (Z.ones 2); rewrite Z.land_ones by lia; change (2 ^ 12) with 4096; change (2 ^ 2) with 4; unfold b; lia).
  assert (Eb3 : b &&& 4095 = q) by (change 4095 with (Z.ones 12); rewrite Z.land_ones by lia; change (2 ^ 12) with 4096; unfold b; lia).
  rewrite Eb1, Eb2, Eb3.
  assert (exists p2, (if orf_high q =? 12 then p <- consume_bits MSB p1 15 ;; '(h, p) <- get_ibits MSB p (16 - k) ;; Ok (h >>> 1, p)
                 else p <- consume_bits MSB p1 (orf_high q + 4) ;; Ok (orf_high q, p)) = Ok (high, p2) /\ Repr MSB p2 (binary (Z.to_nat k) (m mod 2 ^ k) ++ tail)) as [p2 [E2 R2]].
  { assert (L2 : length (binary 2 (e mod 4)) = 2%nat) by reflexivity. unfold q, body in *. clear q Hq b Eb1 Eb2 Eb3 E1 body. destruct (high <? 12) eqn:Eh.
    - set (n := Z.to_nat high) in *. rewrite <- app_assoc in *. cbn [app] in *.
      set (u := binary (Z.to_nat k) (m mod 2 ^ k) ++ tail) in *. assert (Hu : (12 <= length u)%nat) by (unfold u; rewrite app_length; lia).
      assert (E : firstn 12 (repeat false n ++ true :: u) = repeat false n ++ true :: firstn (11 - n) u).
      { rewrite firstn_app, repeat_length, firstn_all2 by (rewrite repeat_length; lia). f_equal. replace (12 - n)%nat with (S (11 - n)) by lia. reflexivity. }
      rewrite E, orf_high_ok by (rewrite firstn_length; lia). replace (Z.of_nat n =? 12) with false by lia.
      destruct (consume_ok MSB p1 _ (n + 4) R1 ltac:(lia)) as [p2 [E2 [R2 _]]]. replace (Z.of_nat (n + 4)) with (Z.of_nat n + 4) in E2 by lia.
      rewrite E2. cbn [bind]. exists p2. split; [f_equal; f_equal; lia|].
      replace (skipn (n + 4) (s :: binary 2 (e mod 4) ++ repeat false n ++ true :: u)) with u in R2; [exact R2|].
      replace (n + 4)%nat with (S (2 + (n + 1))) by lia. cbn [skipn]. rewrite skipn_app, L2, skipn_all2 by (rewrite L2; lia). replace (2 + (n + 1) - 2)%nat with (n + 1)%nat by lia.
      cbn [app]. rewrite skipn_app, repeat_length, skipn_all2 by (rewrite repeat_length; lia). replace (n + 1 - n)%nat with 1%nat by lia. reflexivity.
    - rewrite <- app_assoc in *. set (u := binary (Z.to_nat k) (m mod 2 ^ k) ++ tail) in *.
      rewrite firstn_app, repeat_length, Nat.sub_diag, firstn_O, app_nil_r, firstn_all2 by (rewrite repeat_length; lia).
      rewrite number_repeat_false. change (orf_high 0 =? 12) with true. cbv iota.
      destruct (consume_ok MSB p1 _ 15 R1 ltac:(lia)) as [p2 [E2 [R2 _]]]. change (Z.of_nat 15) with 15 in E2. rewrite E2. cbn [bind].
      replace (skipn 15 (s :: binary 2 (e mod 4) ++ repeat false 12 ++ binary (Z.to_nat (16 - k)) (2 * high) ++ u)) with (binary (Z.to_nat (16 - k)) (2 * high) ++ u) in R2 by reflexivity.
      destruct (word_readi (Z.to_nat (16 - k)) (2 * high) p2 u) as [p3 [E3 R3]]; [lia| |exact R2|].
      + rewrite Z2Nat.id by lia. split; [lia|]. assert (2 ^ (16 - k) * 2 ^ k = 2 ^ 16) by (rewrite <- Z.pow_add_r by lia; f_equal; lia).
        change (2 ^ 16) with 65536 in *. change (2 ^ 15) with 32768 in *. nia.
      + rewrite Z2Nat.id in E3 by lia. rewrite E3. cbn [bind]. exists p3. split; [|exact R3]. rewrite Z.shiftr_div_pow2 by lia. change (2 ^ 1) with 2. f_equal. f_equal. lia. }
  rewrite E2. cbn [bind]. destruct (word_readi (Z.to_nat k) (m mod 2 ^ k) p2 tail) as [p3 [E3 R3]]; [lia|rewrite Z2Nat.id by lia; lia|exact R2|].
  rewrite Z2Nat.id in E3 by lia. rewrite E3. cbn [bind]. rewrite lor_split by lia. rewrite Em, as_i32_small by (change (2 ^ 31) with 2147483648; change (2 ^ 15) with 32768 in *; lia).
  assert (Ex : Z.lxor m (- Z.b2z s) = e / 4 - mean).
  { unfold m, orf_distance. subst s. destruct (e / 4 - mean <? 0) eqn:E; cbn [Z.b2z Z.opp].
    - rewrite Z.lxor_m1_r. unfold Z.lnot. lia.
    - apply Z.lxor_0_r. }
  rewrite Ex. change (2 ^ 15) with 32768 in *. change (2 ^ 18) with 262144 in *. change (2 ^ 31) with 2147483648 in *.
  rewrite i32add_ok by (change (2 ^ 31) with 2147483648; lia). cbn [bind]. replace (e / 4 - mean + mean) with (e / 4) by lia.
  assert (E4 : i32mul (e / 4) 3 = Ok (e / 4 * 3)) by (unfold i32mul; apply arith_s_ok; change (2 ^ (32 - 1)) with 2147483648; lia). rewrite E4. cbn [bind].
  rewrite i32add_ok by (change (2 ^ 31) with 2147483648; lia). cbn [bind].
  exists p3. split; [|exact R3]. rewrite Z.shiftr_div_pow2 by lia. change (2 ^ 5) with 32. replace (e / 4 * 3 + mean) with (3 * (e / 4) + mean) by lia.
  destruct (16 <? m); [reflexivity|]. rewrite i32add_ok by (change (2 ^ 31) with 2147483648; lia). reflexivity.
Qed.
End Orf.
