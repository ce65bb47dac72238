(** Proofs about Panasonic: the reader. *)
From Coq Require Import String ZArith List Bool Lia ZifyBool ZifyNat.
From Verif Require Import Base Bytes Pumps Huffman Packed Threads Dec_Pred Spec_Bits Spec_Pump Spec_Stream Spec_Image Spec_Huffman Spec_Ljpeg Spec_Pana
  P_Base P_Bits P_Threads P_Pumps P_Huff1 P_Huff4 P_Huff5 P_Ljpeg1 P_Pred1 P_Pred10 P_Orf1.
Import ListNotations.
Local Open Scope Z_scope.
Ltac Zify.zify_post_hook ::= Z.div_mod_to_equations.

Section Reader.
Context {M : Mode}.
Variables (buf : list Z) (split : bool).
Hypothesis Hb : bytes buf.
Hypothesis Hlen : zlen buf < 2 ^ 64.

(** [t] bits have been read. *)
Definition Pa (t : Z) (p : pana) : Prop := exists B pos nb, 0 <= B /\ 16384 * B <= zlen buf /\ p = mkpana (skipn (Z.to_nat (16384 * B)) buf) pos nb split /\
  pos mod 16384 = 0 /\ 0 <= nb < 131072 /\ nb <= 8 * pos /\ 131072 * B + 8 * pos - nb = t.

Lemma LEu16_at : forall l a, bytes l -> 0 <= a -> a + 1 < zlen l -> LEu16 l a = Ok (znth l a + 256 * znth l (a + 1)).
Proof.
  intros l a Hl Ha Hz. rewrite LEu16_spec by (assumption || lia). f_equal. unfold sub_list, znth.
  assert (E : skipn (Z.to_nat a) l = nth (Z.to_nat a) l 0 :: nth (Z.to_nat (a + 1)) l 0 :: skipn (Z.to_nat a + 2) l).
  { replace (Z.to_nat (a + 1)) with (S (Z.to_nat a)) by lia. unfold zlen in Hz. assert (Z.to_nat a + 1 < length l)%nat as H by lia. clear - H.
    revert H. generalize (Z.to_nat a) as n. induction l as [|x l IH]; intros n H; [cbn in H; lia|]. destruct n as [|n].
    - destruct l; [cbn in H; lia|]. reflexivity.
    - cbn [skipn nth Nat.add]. apply IH. cbn in H. lia. }
  rewrite E. cbn [firstn little_endian_value]. lia.
Qed.
Lemma xor_rev : forall x, 0 <= x < 16384 -> Z.lxor x 16368 = 16 * (1023 - x / 16) + x mod 16.
Proof.
  intros x Hx. pose proof (Z.div_mod x 16 ltac:(lia)) as E.
  assert (H1 : Z.lxor x 16368 = Z.lxor (Z.shiftl (x / 16) 4 + x mod 16) (Z.shiftl 1023 4)).
  { rewrite Z.shiftl_mul_pow2 by lia. change (2 ^ 4) with 16. change (Z.shiftl 1023 4) with 16368. f_equal. lia. }
  assert (A : forall a b, 0 <= b < 16 -> Z.shiftl a 4 + b = Z.lor (Z.shiftl a 4) b).
  { intros a b Hb2. rewrite lor_split by (change (2 ^ 4) with 16; lia). rewrite Z.shiftl_mul_pow2 by lia. reflexivity. }
  assert (R : Z.lxor (x / 16) 1023 = 1023 - x / 16).
  { assert (Hq : 0 <= x / 16 < 1024) by lia. set (q := x / 16) in *. clearbody q. clear - Hq.
    assert (S : Z.sub 1023 q = Z.lxor 1023 q).
    { assert (L : Z.ldiff q 1023 = 0).
      { change 1023 with (Z.ones 10). rewrite Z.ldiff_ones_r by lia. rewrite Z.shiftr_div_pow2 by lia. change (2 ^ 10) with 1024. rewrite Z.div_small by lia. reflexivity. }
      rewrite Z.sub_nocarry_ldiff by exact L. symmetry. apply Z.bits_inj'. intros j Hj. rewrite Z.lxor_spec, Z.ldiff_spec.
      assert (B : Z.testbit q j = true -> Z.testbit 1023 j = true).
      { intros T. pose proof (f_equal (fun z => Z.testbit z j) L) as Q. cbv beta in Q. rewrite Z.ldiff_spec, Z.bits_0, T in Q. destruct (Z.testbit 1023 j); [reflexivity|discriminate Q]. }
      destruct (Z.testbit q j), (Z.testbit 1023 j); try reflexivity. discriminate (B eq_refl). }
    rewrite Z.lxor_comm. lia. }
  rewrite H1. rewrite A by lia.
  replace (Z.lxor (Z.lor (Z.shiftl (x / 16) 4) (x mod 16)) (Z.shiftl 1023 4)) with (Z.lor (Z.shiftl (Z.lxor (x / 16) 1023) 4) (x mod 16)).
  - rewrite R, <- A by lia. rewrite Z.shiftl_mul_pow2 by lia. change (2 ^ 4) with 16. lia.
  - apply Z.bits_inj'. intros j Hj. rewrite Z.lxor_spec, !Z.lor_spec. destruct (Z.lt_ge_cases j 4) as [H|H].
    + rewrite !Z.shiftl_spec_low by exact H. cbn [orb]. rewrite xorb_false_r. reflexivity.
    + rewrite !Z.shiftl_spec_high by lia. rewrite Z.lxor_spec. replace (Z.testbit (x mod 16) j) with false; [rewrite !orb_false_r; reflexivity|].
      symmetry. destruct (Z.eq_dec (x mod 16) 0) as [-> |N]; [apply Z.bits_0|].
      apply Z.bits_above_log2; [lia|]. apply Z.log2_lt_pow2; [lia|]. apply Z.lt_le_trans with (2 ^ 4); [lia|apply Z.pow_le_mono_r; lia].
Qed.

Definition at_place (t num : Z) : Z := pana_place split (16 * (t / 128) + (128 - t mod 128 - num) / 8).
Lemma place_range : forall j, 0 <= j -> 0 <= pana_place split j.
Proof. intros j Hj. unfold pana_place. destruct split; lia. Qed.

Lemma read_at : forall t num p, Pa t p -> 1 <= num <= 8 -> t mod 128 + num <= 128 -> at_place t num + 1 < zlen buf ->
  exists p', pana_bits p num = Ok ((znth buf (at_place t num) + 256 * znth buf (at_place t num + 1)) / 2 ^ ((128 - t mod 128 - num) mod 8) mod 2 ^ num, p') /\ Pa (t + num) p'.
Proof.
  intros t num p [B [pos [nb [HB [HB2 [-> [Hpos [Hnb [Hnp Ht]]]]]]]]] Hn Hu Ha. unfold pana_bits. replace (num =? 0) with false by lia.
  unfold pana_peek. cbn [n_nbits n_pos n_buf n_split].
  set (pos' := if nb <? num then pos + 16384 else pos). set (nb' := if nb <? num then nb + 131072 else nb).
  assert (E1 : (if nb <? num then nb0 <- u32add nb 0x20000 ;; Ok (mkpana (skipn (Z.to_nat (16384 * B)) buf) (pos + 0x4000) nb0 split)
        else Ok (mkpana (skipn (Z.to_nat (16384 * B)) buf) pos nb split)) = Ok (mkpana (skipn (Z.to_nat (16384 * B)) buf) pos' nb' split)).
  { unfold pos', nb'. destruct (nb <? num); [|reflexivity]. unfold u32add. rewrite arith_u_ok by (change (2 ^ 32) with 4294967296; lia). reflexivity. }
  rewrite E1. clear E1. cbn [bind n_nbits n_pos n_buf n_split].
  assert (Hnb' : num <= nb' <= 131072 /\ pos' mod 16384 = 0 /\ 131072 * B + 8 * pos' - nb' = t /\ nb' <= 8 * pos' /\ 16384 <= pos' /\ pos' = 16384 * (t / 131072 - B + 1)).
  { unfold nb', pos'. destruct (nb <? num) eqn:E; lia. }
  clearbody nb' pos'. clear Hpos Hnb Hnp Ht pos nb. destruct Hnb' as [Hnb [Hpos [Ht [Hnp [Hp0 Hpq]]]]].
  unfold u32sub. rewrite arith_u_ok by (change (2 ^ 32) with 4294967296; lia). cbn [bind].
  set (n := nb' - num). set (u := t mod 128) in *. set (g := t mod 131072 / 128).
  assert (En : n = 128 * (1023 - g) + (128 - u - num)) by (unfold n, u, g; lia).
  assert (Hg : 0 <= g < 1024) by (unfold g; lia). assert (Hu0 : 0 <= u < 128) by (unfold u; lia).
  rewrite (Z.shiftr_div_pow2 n 3) by lia. change (2 ^ 3) with 8. change 0x3ff0 with 16368. rewrite xor_rev by lia.
  set (b := (128 - u - num) / 8) in *. set (sh := (128 - u - num) mod 8) in *.
  assert (Ebyte : 16 * (1023 - n / 8 / 16) + (n / 8) mod 16 = 16 * g + b) by (unfold b; lia).
  rewrite Ebyte. assert (Hbb : 0 <= b < 16) by (unfold b; lia). 
  set (bp := if split then (16 * g + b + 8184) mod 16384 else 16 * g + b).
  assert (E2 : (if split then b0 <- u32add (16 * g + b) 0x4000 ;; b0 <- u32sub b0 0x2008 ;; Ok (b0 mod 0x4000) else Ok (16 * g + b)) = Ok bp).
  { unfold bp, u32add, u32sub. destruct split; [|reflexivity]. do 2 (rewrite arith_u_ok by (change (2 ^ 32) with 4294967296; lia); cbn [bind]). f_equal. lia. }
  unfold u32sub in E2. rewrite E2. cbn [bind]. clear E2.
  assert (Hbp : 0 <= bp < 16384) by (unfold bp; destruct split; lia).
  assert (Et : t / 128 = 1024 * (t / 131072) + g) by (unfold g; lia).
  assert (Eat : bp + pos' - 16384 = at_place t num - 16384 * B).
  { unfold at_place, bp, pana_place. fold u b. rewrite Et. destruct split; lia. }
  assert (H0 : 0 <= bp + pos' - 16384) by lia. set (a := at_place t num) in *.
  unfold usub. change 0x4000 with 16384. rewrite arith_u_ok by lia. cbn [bind]. rewrite Eat in *.
  rewrite LEu16_at; [|apply Forall_skipn; exact Hb|exact H0|rewrite zlen_skipn; lia]. cbn [bind].
  assert (Ez : forall j, 0 <= j -> znth (skipn (Z.to_nat (16384 * B)) buf) j = znth buf (16384 * B + j)).
  { intros j Hj. unfold znth. rewrite nth_skipn'. f_equal. lia. }
  rewrite !Ez by lia. replace (16384 * B + (a - 16384 * B)) with a by lia. replace (16384 * B + (a - 16384 * B + 1)) with (a + 1) by lia.
  set (x := znth buf a + 256 * znth buf (a + 1)).
  rewrite (arith_u_ok 32 (32 - num)) by (change (2 ^ 32) with 4294967296; lia). cbn [bind].
  assert (Es : shr_u 32 4294967295 (32 - num) = Ok (Z.ones num)).
  { unfold shr_u, shamt. replace ((0 <=? 32 - num) && (32 - num <? 32)) with true by lia. cbn [bind]. f_equal.
    assert (num = 1 \/ num = 2 \/ num = 3 \/ num = 4 \/ num = 5 \/ num = 6 \/ num = 7 \/ num = 8) as [-> |[-> |[-> |[-> |[-> |[-> |[-> | ->]]]]]]] by lia; reflexivity. }
  rewrite Es. cbn [bind n_nbits n_pos n_buf n_split]. rewrite arith_u_ok by (change (2 ^ 32) with 4294967296; lia). cbn [bind].
  rewrite Z.land_ones by lia. assert (Esh : n &&& 7 = sh) by (change 7 with (Z.ones 3); rewrite Z.land_ones by lia; change (2 ^ 3) with 8; unfold sh; lia).
  rewrite Esh, Z.shiftr_div_pow2 by (unfold sh; lia). eexists. split; [reflexivity|].
  exists B, pos', n. repeat split; try assumption; try reflexivity; try lia.
Qed.

Lemma low_agree : forall a b s n, 0 <= s -> 0 <= n -> a mod 2 ^ (s + n) = b mod 2 ^ (s + n) -> a / 2 ^ s mod 2 ^ n = b / 2 ^ s mod 2 ^ n.
Proof.
  intros a b s n Hs Hn E. rewrite Z.pow_add_r in E by assumption. assert (0 < 2 ^ s) by (apply Z.pow_pos_nonneg; lia). assert (0 < 2 ^ n) by (apply Z.pow_pos_nonneg; lia).
  rewrite !Z.rem_mul_r in E by lia. pose proof (Z.mod_pos_bound a (2 ^ s) ltac:(lia)). pose proof (Z.mod_pos_bound b (2 ^ s) ltac:(lia)). nia.
Qed.
Lemma lev_div : forall n l, bytes l -> little_endian_value l / 2 ^ (8 * Z.of_nat n) = little_endian_value (skipn n l).
Proof.
  induction n as [|n IH]; intros l Hl; [cbn [skipn]; change (2 ^ (8 * Z.of_nat 0)) with 1; apply Z.div_1_r|].
  destruct l as [|x l]; cbn [skipn little_endian_value]; [apply Z.div_0_l; apply Z.pow_nonzero; lia|]. inversion Hl; subst.
  rewrite <- IH by assumption. replace (8 * Z.of_nat (S n)) with (8 + 8 * Z.of_nat n) by lia. rewrite Z.pow_add_r by lia.
  rewrite <- Z.div_div by (try apply Z.pow_nonzero; lia || (apply Z.pow_pos_nonneg; lia)). f_equal. change (2 ^ 8) with 256. unfold byte in *. lia.
Qed.

Lemma znth_byte : forall j, byte (znth buf j).
Proof.
  intros j. unfold znth. destruct (Nat.lt_ge_cases (Z.to_nat j) (length buf)) as [H|H].
  - unfold bytes in Hb. rewrite Forall_forall in Hb. apply Hb. apply nth_In. exact H.
  - rewrite nth_overflow by exact H. unfold byte. lia.
Qed.
Definition unbroken (g : Z) : Prop := split = false \/ g mod 1024 <> 512.
Lemma place_next : forall g i, 0 <= g -> unbroken g -> 0 <= i < 15 -> pana_place split (16 * g + (i + 1)) = pana_place split (16 * g + i) + 1.
Proof. intros g i Hg [-> |U] Hi; unfold pana_place; [lia|]. destruct split; [|lia]. lia. Qed.

Lemma read_value : forall g u num p, Pa (128 * g + u) p -> 0 <= g -> 0 <= u -> 1 <= num <= 8 -> u + num <= 128 -> unbroken g ->
  at_place (128 * g + u) num + 1 < zlen buf ->
  exists p', pana_bits p num = Ok (number (firstn (Z.to_nat num) (skipn (Z.to_nat u) (bits_of (pana_group_bytes split buf g)))), p') /\ Pa (128 * g + (u + num)) p'.
Proof.
  intros g u num p P Hg Hu Hn Hun U Ha. destruct (read_at (128 * g + u) num p P Hn ltac:(lia) Ha) as [p' [E P']].
  exists p'. split; [|replace (128 * g + (u + num)) with (128 * g + u + num) by lia; exact P']. rewrite E. f_equal. f_equal. clear E P' P p'.
  set (F := fun i => nth (Z.to_nat (pana_place split (16 * g + i))) buf 0).
  assert (Eg : pana_group_bytes split buf g = rev (map F (upto 16))).
  { unfold pana_group_bytes. rewrite <- map_rev. change (rev (upto 16)) with (map (fun i => 15 - i) (upto 16)). rewrite map_map. apply map_ext. intros i. unfold F. f_equal. f_equal. f_equal. lia. }
  assert (BF : bytes (map F (upto 16))). { apply Forall_forall. intros x Hx. apply in_map_iff in Hx. destruct Hx as [i [<- _]]. apply znth_byte. }
  rewrite Eg, bits_of_zbits by (apply Forall_rev; exact BF). rewrite <- little_endian_rev, rev_length, map_length.
  change (8 * length (upto 16))%nat with 128%nat. set (V := little_endian_value (map F (upto 16))).
  assert (Ec : (128 - (128 * g + u) mod 128 - num) = 128 - u - num) by lia. rewrite Ec.
  set (d := 128 - u - num). set (b := d / 8). set (sh := d mod 8).
  replace 128%nat with (Z.to_nat u + (Z.to_nat num + Z.to_nat d))%nat by lia. rewrite skipn_zbits, firstn_zbits, number_zbits.
  rewrite !Z2Nat.id by lia. replace d with (8 * Z.of_nat (Z.to_nat b) + sh) by lia. rewrite Z.pow_add_r by lia. rewrite <- Z.div_div by (try apply Z.pow_nonzero; lia || (apply Z.pow_pos_nonneg; lia)).
  unfold V. rewrite lev_div by exact BF. apply low_agree; [lia|lia|].
  assert (Eat : at_place (128 * g + u) num = pana_place split (16 * g + b)).
  { unfold at_place. rewrite Ec. fold d b. f_equal. lia. }
  rewrite Eat. assert (Hb16 : 0 <= b < 16) by (unfold b; lia).
  assert (Es : exists R, little_endian_value (skipn (Z.to_nat b) (map F (upto 16))) = F b + 256 * R /\ (b < 15 -> R mod 256 = F (b + 1))).
  { assert (Hs : forall k, (k < 16)%nat -> skipn k (map F (upto 16)) = F (Z.of_nat k) :: skipn (S k) (map F (upto 16))).
    { intros k Hk. do 16 (destruct k as [|k]; [reflexivity|]). lia. }
    rewrite Hs by lia. rewrite Z2Nat.id by lia. cbn [little_endian_value]. eexists. split; [reflexivity|].
    intros H15. rewrite Hs by lia. cbn [little_endian_value]. replace (Z.of_nat (S (Z.to_nat b))) with (b + 1) by lia.
    assert (byte (F (b + 1))) by apply znth_byte. unfold byte in *. lia. }
  destruct Es as [R [-> HR]]. change (znth buf (pana_place split (16 * g + b))) with (F b).
  destruct (Z.eq_dec b 15) as [E15|N15].
  - assert (L8 : sh + num <= 8) by lia. assert (forall x, (F b + 256 * x) mod 2 ^ (sh + num) = F b mod 2 ^ (sh + num)) as Q; [|rewrite !Q; reflexivity].
    intros x. replace (256 * x) with (x * 2 ^ (8 - (sh + num)) * 2 ^ (sh + num)).
    + apply Z.mod_add. apply Z.pow_nonzero; lia.
    + rewrite <- Z.mul_assoc, <- Z.pow_add_r by lia. replace (8 - (sh + num) + (sh + num)) with 8 by lia. change (2 ^ 8) with 256. lia.
  - replace (pana_place split (16 * g + b) + 1) with (pana_place split (16 * g + (b + 1))) by (apply place_next; [exact Hg|exact U|lia]).
    change (znth buf (pana_place split (16 * g + (b + 1)))) with (F (b + 1)). rewrite <- (HR ltac:(lia)).
    replace (F b + 256 * R) with (F b + 256 * (R mod 256) + (R / 256) * 2 ^ (16 - (sh + num)) * 2 ^ (sh + num)).
    + symmetry. apply Z.mod_add. apply Z.pow_nonzero; lia.
    + rewrite <- Z.mul_assoc, <- Z.pow_add_r by lia. replace (16 - (sh + num) + (sh + num)) with 16 by lia. change (2 ^ 16) with 65536. lia.
Qed.
End Reader.
