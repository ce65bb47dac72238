(** Proofs about Kodak's DCR files: a segment. *)
From Coq Require Import String ZArith List Bool Lia ZifyBool ZifyNat.
From Verif Require Import Base Bytes Pumps Huffman Packed Threads Dec_Simple Spec_Bits Spec_Pump Spec_Stream Spec_Image Spec_Huffman Spec_Ljpeg Spec_Dcr
  P_Base P_Bits P_Threads P_Pumps P_Huff1 P_Huff3 P_Huff4 P_Huff5 P_Huff6 P_Ljpeg1 P_Ljpeg2 P_Ljpeg4 P_Sensor4 P_Pred1 P_Pred2 P_Orf1.
Import ListNotations.
Local Open Scope Z_scope.
Ltac Zify.zify_post_hook ::= Z.div_mod_to_equations.

Lemma extra_range : forall d, 0 <= extra d < 2 ^ Z.of_nat (category d).
Proof. intros d. apply difference_extra. Qed.
Lemma kodak_bits_nonneg : forall ds, 0 <= kodak_bits ds.
Proof. induction ds as [|d ds IH]; cbn [kodak_bits]; lia. Qed.
Lemma take_bits : forall X d ds, X mod 2 ^ kodak_bits (d :: ds) = kodak_number (d :: ds) ->
  X mod 2 ^ Z.of_nat (category d) = extra d /\ (X / 2 ^ Z.of_nat (category d)) mod 2 ^ kodak_bits ds = kodak_number ds.
Proof.
  intros X d ds H. cbn [kodak_bits kodak_number] in H. pose proof (kodak_bits_nonneg ds). pose proof (extra_range d) as Hx.
  rewrite Z.pow_add_r in H by lia. assert (P1 : 0 < 2 ^ Z.of_nat (category d)) by lia. assert (P2 : 0 < 2 ^ kodak_bits ds) by (apply Z.pow_pos_nonneg; lia).
  rewrite Z.rem_mul_r in H by lia. pose proof (Z.mod_pos_bound X _ P1) as Hm.
  set (m := X mod 2 ^ Z.of_nat (category d)) in *. set (q := (X / 2 ^ Z.of_nat (category d)) mod 2 ^ kodak_bits ds) in *. clearbody m q.
  assert (E : (2 ^ Z.of_nat (category d)) * q + m = (2 ^ Z.of_nat (category d)) * kodak_number ds + extra d) by lia.
  apply Z.div_mod_unique in E; [|lia|lia]. destruct E as [E1 E2]. split; assumption.
Qed.

Section Segment.
Context {M : Mode}.
Lemma get_u8_ok : forall buf pos e b l, At buf pos (b :: l) -> bs_get_u8 (mkbs buf pos e) = Ok (b, mkbs buf (pos + 1) e).
Proof. intros buf pos e b l H. unfold bs_get_u8, bs_peek_u8. cbn [bsend bsbuf bspos]. rewrite (At_get _ _ _ _ H). reflexivity. Qed.
Lemma shl_ok : forall a s, 0 <= a < 256 -> 0 <= s <= 56 -> shl_u 64 a s = Ok (a * 2 ^ s).
Proof.
  intros a s Ha Hs. unfold shl_u, shamt. replace ((0 <=? s) && (s <? 64)) with true by lia. cbn [bind]. rewrite Z.shiftl_mul_pow2 by lia.
  rewrite Z.mod_small; [reflexivity|]. assert (1 <= 2 ^ s <= 2 ^ 56) by (split; [apply (Z.pow_le_mono_r 2 0 s)|apply Z.pow_le_mono_r]; lia).
  change (2 ^ 64) with (256 * 2 ^ 56). nia.
Qed.
Lemma refill_ok : forall buf pos e bits bitbuf a b c d l, At buf pos (a :: b :: c :: d :: l) -> bytes [a; b; c; d] -> 0 <= bits <= 16 -> 0 <= bitbuf < 2 ^ bits ->
  seg_refill bits bitbuf (mkbs buf pos e) = Ok (bitbuf + 2 ^ bits * (256 * a + b + 65536 * (256 * c + d)), mkbs buf (pos + 4) e) /\ At buf (pos + 4) l.
Proof.
  intros buf pos e bits bitbuf a b c d l HA Hb Hbits Hbuf. unfold seg_refill. change (zrange_step 0 32 8) with [0; 8; 16; 24]. cbn [rfold].
  assert (Ha : byte a) by (inversion Hb; assumption). assert (Hb' : byte b) by (inversion Hb as [|? ? ? H]; inversion H; assumption).
  assert (Hc : byte c) by (inversion Hb as [|? ? ? H]; inversion H as [|? ? ? H']; inversion H'; assumption). assert (Hd : byte d) by (inversion Hb as [|? ? ? H]; inversion H as [|? ? ? H']; inversion H' as [|? ? ? H'']; inversion H''; assumption).
  unfold byte in *. clear Hb.
  assert (P : 1 <= 2 ^ bits <= 65536) by (split; [apply (Z.pow_le_mono_r 2 0 bits)|apply (Z.pow_le_mono_r 2 bits 16)]; lia).
  rewrite (get_u8_ok _ _ _ _ _ HA). cbn [bind]. apply At_next in HA. change (Z.lxor 0 8) with 8. rewrite shl_ok by lia. cbn [bind]. unfold uadd.
  rewrite Z.pow_add_r by lia. change (2 ^ 8) with 256. rewrite arith_u_ok by (change (2 ^ 64) with 18446744073709551616; nia). cbn [bind].
  rewrite (get_u8_ok _ _ _ _ _ HA). cbn [bind]. apply At_next in HA. change (Z.lxor 8 8) with 0. rewrite Z.add_0_r. rewrite shl_ok by lia. cbn [bind].
  rewrite arith_u_ok by (change (2 ^ 64) with 18446744073709551616; nia). cbn [bind].
  rewrite (get_u8_ok _ _ _ _ _ HA). cbn [bind]. apply At_next in HA. change (Z.lxor 16 8) with 24. rewrite shl_ok by lia. cbn [bind].
  rewrite Z.pow_add_r by lia. change (2 ^ 24) with 16777216. rewrite arith_u_ok by (change (2 ^ 64) with 18446744073709551616; nia). cbn [bind].
  rewrite (get_u8_ok _ _ _ _ _ HA). cbn [bind]. apply At_next in HA. change (Z.lxor 24 8) with 16. rewrite shl_ok by lia. cbn [bind].
  rewrite Z.pow_add_r by lia. change (2 ^ 16) with 65536. rewrite arith_u_ok by (change (2 ^ 64) with 18446744073709551616; nia). cbn [bind].
  replace (pos + 1 + 1 + 1 + 1) with (pos + 4) in * by lia. split; [|exact HA]. f_equal. f_equal. ring.
Qed.
Lemma shr_ok : forall a s, 0 <= s < 64 -> shr_u 64 a s = Ok (a / 2 ^ s).
Proof. intros a s Hs. unfold shr_u, shamt. replace ((0 <=? s) && (s <? 64)) with true by lia. cbn [bind]. rewrite Z.shiftr_div_pow2 by lia. reflexivity. Qed.
Lemma mask_ok : forall x len, 0 <= len <= 16 -> (x &&& (65535 / 2 ^ (16 - len))) = x mod 2 ^ len.
Proof.
  intros x len H. replace (65535 / 2 ^ (16 - len)) with (Z.ones len); [apply Z.land_ones; lia|].
  change 65535 with (Z.ones 16). rewrite Z.ones_div_pow2 by lia. f_equal. lia.
Qed.
Lemma value_ok : forall d, (category d <= 15)%nat -> seg_value (extra d) (Z.of_nat (category d)) = Ok d.
Proof.
  intros d Hc. destruct (difference_extra d) as [R E]. unfold seg_value, difference in *. set (n := category d) in *. set (v := extra d) in *. clearbody n v.
  destruct (n =? 0)%nat eqn:E0.
  - replace (Z.of_nat n =? 0) with true by lia. cbn [negb andb]. replace n with 0%nat in R by lia. f_equal. change (2 ^ Z.of_nat 0) with 1 in R. lia.
  - replace (Z.of_nat n =? 0) with false by lia. cbn [negb andb]. set (k := Z.of_nat n - 1) in *. assert (Hk : 0 <= k <= 14) by lia.
    replace (Z.of_nat n) with (k + 1) in * by lia. assert (P : 2 ^ (k + 1) = 2 * 2 ^ k) by (rewrite Z.pow_add_r by lia; lia).
    assert (Q : 1 <= 2 ^ k <= 2 ^ 14) by (split; [apply (Z.pow_le_mono_r 2 0 k)|apply (Z.pow_le_mono_r 2 k 14)]; lia). change (2 ^ 14) with 16384 in Q.
    assert (L : (v &&& Z.shiftl 1 k =? 0) = negb (2 ^ k <=? v)).
    { rewrite Z.shiftl_1_l. pose proof (top_bit (k + 1) v ltac:(lia) ltac:(lia)) as T. replace (k + 1 - 1) with k in T by lia. exact T. }
    rewrite L. rewrite Z.shiftl_1_l. destruct (2 ^ k <=? v) eqn:Ek; cbn [negb]; [f_equal; exact E|].
    rewrite i32sub_ok by (change (2 ^ 31) with 2147483648; lia). f_equal. exact E.
Qed.

Section One.
Variables (buf : list Z) (e : endian) (ds tail : list Z).
Notation size := (zlen ds).
Hypothesis Hsize : size <= 256.
Hypothesis Hcat : forall d, In d ds -> (category d <= 15)%nat.
Notation cat i := (Z.of_nat (category (znth ds i))).

Lemma cat_le : forall i, 0 <= cat i <= 15.
Proof.
  intros i. destruct (nth_in_or_default (Z.to_nat i) ds 0) as [H|H].
  - specialize (Hcat _ H). unfold znth. lia.
  - unfold znth. rewrite H. cbn. lia.
Qed.
(** The lengths *)
Lemma lens_ok : forall pos rest, At buf pos (kodak_lengths ds ++ rest) ->
  exists lens pos', seg_lens size (mkbs buf pos e) = Ok (lens, mkbs buf pos' e) /\ At buf pos' rest /\ zlen lens = 256 /\ forall i, 0 <= i < size -> znth lens i = cat i.
Proof.
  intros pos rest HA. unfold seg_lens. pose proof (zlen_nonneg ds) as H0. set (n := (size + 1) / 2).
  assert (Er : zrange_step 0 size 2 = map (fun j => 2 * j) (zrange 0 n)).
  { unfold zrange_step, zrange. rewrite map_map. replace ((size - 0 + 2 - 1) / 2) with n by (unfold n; lia). rewrite Z.sub_0_r. apply map_ext. intros j. lia. }
  rewrite Er, rfold_map.
  match goal with |- context [rfold ?f (zrange 0 n) ?st0] => destruct (rfold_zrange f (fun k '(lens, s) => s = mkbs buf (pos + k) e /\ At buf (pos + k) (map (fun k => cat (2 * k) + 16 * cat (2 * k + 1)) (zrange k n) ++ rest) /\
    zlen lens = 256 /\ forall i, 0 <= i < 2 * k -> znth lens i = cat i) 0 n st0) as [[lens s1] [E [-> [A [L V]]]]] end.
  - unfold n. lia.
  - rewrite Z.add_0_r. split; [reflexivity|split; [|split; [reflexivity|lia]]]. unfold kodak_lengths in HA. rewrite upto_zrange in HA. exact HA.
  - intros k [lens s1] Hk [-> [A [L V]]]. rewrite (zrange_cons k n) in A by lia. cbn [map app] in A. pose proof (cat_le (2 * k)) as C1. pose proof (cat_le (2 * k + 1)) as C2.
    unfold bs_peek_u8. cbn [bsbuf bspos]. rewrite (At_get _ _ _ _ A). cbn [bind]. rewrite (upd_ok lens) by (unfold n in *; lia). cbn [bind].
    rewrite (get_u8_ok _ _ _ _ _ A). cbn [bind]. rewrite upd_ok by (rewrite zlen_upd_nat; unfold n in *; lia). cbn [bind]. eexists. split; [reflexivity|].
    replace (pos + (k + 1)) with (pos + k + 1) by lia. split; [reflexivity|split; [exact (At_next _ _ _ _ A)|split; [rewrite !zlen_upd_nat; exact L|]]].
    intros i Hi. rewrite znth_upd_nat by (rewrite ?zlen_upd_nat; unfold n in *; lia). rewrite znth_upd_nat by (unfold n in *; lia).
    destruct (i =? 2 * k + 1) eqn:Q1; [|destruct (i =? 2 * k) eqn:Q2].
    + rewrite Z.shiftr_div_pow2 by lia. change (2 ^ 4) with 16. replace i with (2 * k + 1) by lia. lia.
    + change 15 with (2 ^ 4 - 1). rewrite land_ones_mod by lia. change (2 ^ 4) with 16. replace i with (2 * k) by lia. lia.
    + apply V. lia.
  - rewrite (zrange_empty n n) in A by lia. exists lens, (pos + n). split; [exact E|split; [exact A|split; [exact L|]]]. intros i Hi. apply V. unfold n. lia.
Qed.

(** The differences *)
Definition Seg (i : Z) (st : list Z * Z * Z * bstream) : Prop :=
  let '(out, bitbuf, bits, s) := st in
  zlen out = size /\ (forall k, 0 <= k < i -> znth out k = znth ds k) /\
  let T := kodak_bits (skipn (Z.to_nat i) ds) in
  exists rem pos, s = mkbs buf pos e /\ At buf pos (rem ++ tail) /\ bytes rem /\ 0 <= bits < 48 /\ 0 <= bitbuf < 2 ^ bits /\
    zlen rem = 4 * ((Z.max 0 (T - bits) + 31) / 32) /\ (bitbuf + 2 ^ bits * words_value rem) mod 2 ^ T = kodak_number (skipn (Z.to_nat i) ds).
Lemma skipn_cons : forall i, 0 <= i < size -> skipn (Z.to_nat i) ds = znth ds i :: skipn (Z.to_nat (i + 1)) ds.
Proof.
  intros i Hi. unfold znth, zlen in *. replace (Z.to_nat (i + 1)) with (S (Z.to_nat i)) by lia. assert (H : (Z.to_nat i < length ds)%nat) by lia. clear - H. revert H. generalize (Z.to_nat i) as n.
  induction ds as [|d l IH]; intros n H; [cbn in H; lia|]. destruct n as [|n]; [reflexivity|]. cbn [skipn nth]. apply IH. cbn in H. lia.
Qed.
Lemma seg_step : forall lens i st, zlen lens = 256 -> (forall i, 0 <= i < size -> znth lens i = cat i) -> 0 <= i < size -> Seg i st ->
  exists st', (fun i '(out, bitbuf, bits, s) =>
    len <- get lens i ;;
    '(bitbuf, bits, s) <- (if bits <? len then '(b, s) <- seg_refill bits bitbuf s ;; Ok (b, bits + 32, s)
                           else Ok (bitbuf, bits, s)) ;;
    sh <- usub 16 len ;; mask <- shr_u 64 0xffff sh ;;
    v <- seg_value (bitbuf &&& mask) len ;;
    out <- upd out i v ;;
    bitbuf <- shr_u 64 bitbuf len ;;
    bits <- usub bits len ;;
    Ok (out, bitbuf, bits, s)) i st = Ok st' /\ Seg (i + 1) st'.
Proof.
  intros lens i [[[out bitbuf] bits] s] Ll Vl Hi [Lo [Vo [rem [pos [-> [A [Hb [Hbits [Hbuf [Lr Hn]]]]]]]]]]. cbv beta iota.
  rewrite get_ok by lia. fold (znth lens i). cbn [bind]. rewrite Vl by exact Hi. pose proof (cat_le i) as Hc. rewrite (skipn_cons i Hi) in *.
  set (d := znth ds i) in *. set (len := Z.of_nat (category d)) in *. set (ds' := skipn (Z.to_nat (i + 1)) ds) in *. pose proof (kodak_bits_nonneg ds') as HT'.
  assert (HT : kodak_bits (d :: ds') = len + kodak_bits ds') by reflexivity.
  assert (S1 : exists bitbuf' bits' rem' pos', (if bits <? len then '(b, s) <- seg_refill bits bitbuf (mkbs buf pos e) ;; Ok (b, bits + 32, s) else Ok (bitbuf, bits, mkbs buf pos e)) = Ok (bitbuf', bits', mkbs buf pos' e) /\
    At buf pos' (rem' ++ tail) /\ bytes rem' /\ len <= bits' < 48 /\ 0 <= bitbuf' < 2 ^ bits' /\ zlen rem' = 4 * ((Z.max 0 (kodak_bits (d :: ds') - bits') + 31) / 32) /\
    bitbuf' + 2 ^ bits' * words_value rem' = bitbuf + 2 ^ bits * words_value rem).
  { destruct (bits <? len) eqn:Eb; [|exists bitbuf, bits, rem, pos; repeat (split; [assumption || reflexivity|]); split; [lia|split; [exact Hbuf|split; [exact Lr|reflexivity]]]].
    assert (4 <= zlen rem) by lia. destruct rem as [|a [|b [|c [|f rem]]]]; rewrite ?zlen_cons, ?zlen_nil in *; try (exfalso; cbn in *; lia).
    cbn [app] in A. assert (Hb4 : bytes [a; b; c; f]) by (apply Forall_forall; intros z Hz; apply (proj1 (Forall_forall _ _) Hb); cbn in *; tauto).
    assert (Hb' : bytes rem) by (inversion Hb as [|? ? ? X1]; inversion X1 as [|? ? ? X2]; inversion X2 as [|? ? ? X3]; inversion X3; assumption).
    destruct (refill_ok buf pos e bits bitbuf a b c f (rem ++ tail) A Hb4 ltac:(lia) Hbuf) as [Er A']. rewrite Er. cbn [bind].
    assert (P : 1 <= 2 ^ bits) by (apply (Z.pow_le_mono_r 2 0 bits); lia).
    assert (Hw : 0 <= 256 * a + b + 65536 * (256 * c + f) < 2 ^ 32).
    { pose proof (proj1 (Forall_forall _ _) Hb4) as Hb5. clear Hb4. rename Hb5 into Hb4. pose proof (Hb4 a ltac:(cbn; tauto)). pose proof (Hb4 b ltac:(cbn; tauto)). pose proof (Hb4 c ltac:(cbn; tauto)). pose proof (Hb4 f ltac:(cbn; tauto)). unfold byte in *. change (2 ^ 32) with 4294967296. lia. }
    eexists _, _, rem, _. split; [reflexivity|split; [exact A'|split; [exact Hb'|split; [lia|split; [|split; [lia|]]]]]].
    - rewrite Z.pow_add_r by lia. set (W := 256 * a + b + 65536 * (256 * c + f)) in *. clearbody W. nia.
    - rewrite Z.pow_add_r by lia. change (2 ^ 32) with (65536 * 65536). cbn [words_value]. ring. }
  destruct S1 as [bitbuf' [bits' [rem' [pos' [E1 [A' [Hb' [Hbits' [Hbuf' [Lr' EX]]]]]]]]]]. rewrite E1. cbn [bind].
  unfold usub. rewrite arith_u_ok by (change (2 ^ 64) with 18446744073709551616; lia). cbn [bind]. rewrite shr_ok by lia. cbn [bind]. rewrite mask_ok by lia.
  rewrite <- EX in Hn. apply take_bits in Hn. fold len in Hn. destruct Hn as [N1 N2].
  assert (P : 2 ^ bits' = 2 ^ len * 2 ^ (bits' - len)) by (rewrite <- Z.pow_add_r by lia; f_equal; lia). assert (Pl : 0 < 2 ^ len) by (apply Z.pow_pos_nonneg; lia). assert (Pr : 0 < 2 ^ (bits' - len)) by (apply Z.pow_pos_nonneg; lia).
  assert (Q1 : bitbuf' mod 2 ^ len = extra d).
  { rewrite <- N1, P. replace (bitbuf' + 2 ^ len * 2 ^ (bits' - len) * words_value rem') with (bitbuf' + (2 ^ (bits' - len) * words_value rem') * 2 ^ len) by ring. rewrite Z.mod_add by lia. reflexivity. }
  assert (Q2 : (bitbuf' + 2 ^ bits' * words_value rem') / 2 ^ len = bitbuf' / 2 ^ len + 2 ^ (bits' - len) * words_value rem').
  { rewrite P. replace (bitbuf' + 2 ^ len * 2 ^ (bits' - len) * words_value rem') with (bitbuf' + (2 ^ (bits' - len) * words_value rem') * 2 ^ len) by ring. rewrite Z.div_add by lia. reflexivity. }
  rewrite Q1. unfold len at 1. rewrite value_ok by lia. cbn [bind]. rewrite upd_ok by lia. cbn [bind]. rewrite shr_ok by lia. cbn [bind].
  rewrite arith_u_ok by (change (2 ^ 64) with 18446744073709551616; lia). cbn [bind]. eexists. split; [reflexivity|].
  split; [rewrite zlen_upd_nat; exact Lo|]. split.
  { intros k Hk. rewrite znth_upd_nat by lia. destruct (k =? i) eqn:Ek; [replace k with i by lia; reflexivity|]. apply Vo. lia. }
  fold ds'. exists rem', pos'. split; [reflexivity|split; [exact A'|split; [exact Hb'|split; [lia|split; [|split]]]]].
  - split; [apply Z.div_pos; lia|]. apply Z.div_lt_upper_bound; [lia|]. rewrite <- P. lia.
  - rewrite Lr', HT. f_equal. f_equal. f_equal. lia.
  - rewrite <- Q2. exact N2.
Qed.
Lemma segment_ok : forall seg pos, kodak_segment ds seg -> At buf pos (seg ++ tail) ->
  exists pos', decode_segment size (mkbs buf pos e) = Ok (ds, mkbs buf pos' e) /\ At buf pos' tail.
Proof.
  intros seg pos [pl [-> [Hb [Lp Hn]]]] A. rewrite <- app_assoc in A. unfold decode_segment. pose proof (zlen_nonneg ds) as H0. pose proof (kodak_bits_nonneg ds) as HT.
  destruct (lens_ok pos (pl ++ tail) A) as [lens [p1 [E1 [A1 [L1 V1]]]]]. rewrite E1. cbn [bind]. clear A E1 pos.
  assert (S : exists bitbuf bits p2, seg_start size (mkbs buf p1 e) = Ok (bitbuf, bits, mkbs buf p2 e) /\ Seg 0 (zeros size, bitbuf, bits, mkbs buf p2 e)).
  { unfold seg_start. change 7 with (2 ^ 3 - 1). rewrite land_ones_mod by lia. change (2 ^ 3) with 8. unfold kodak_size in Lp. fold (zlen ds) in Lp. fold (zlen pl) in Lp. destruct (size mod 8 =? 4) eqn:E4.
    - assert (2 <= zlen pl) by lia. destruct pl as [|a [|b pl]]; rewrite ?zlen_cons, ?zlen_nil in *; try (exfalso; cbn in *; lia). cbn [app] in A1.
      rewrite (get_u8_ok _ _ _ _ _ A1). cbn [bind]. apply At_next in A1. rewrite (get_u8_ok _ _ _ _ _ A1). cbn [bind]. apply At_next in A1.
      assert (Ha : byte a) by (inversion Hb; assumption). assert (Hbb : byte b) by (inversion Hb as [|? ? ? X1]; inversion X1; assumption). assert (Hb' : bytes pl) by (inversion Hb as [|? ? ? X1]; inversion X1; assumption).
      unfold byte in Ha, Hbb. rewrite (lor_split a b 8) by lia. change (2 ^ 8) with 256.
      eexists _, _, _. split; [reflexivity|]. split; [unfold zeros, zlen; rewrite repeat_length; lia|split; [lia|]]. change (Z.to_nat 0) with 0%nat. cbn [skipn]. exists pl. eexists. split; [reflexivity|]. split; [exact A1|].
      split; [exact Hb'|split; [lia|split; [change (2 ^ 16) with 65536; lia|split; [lia|]]]]. change (2 ^ 16) with 65536. rewrite <- Hn. cbn [words_value]. f_equal. lia.
    - eexists _, _, _. split; [reflexivity|]. split; [unfold zeros, zlen; rewrite repeat_length; lia|split; [lia|]]. change (Z.to_nat 0) with 0%nat. cbn [skipn]. exists pl. eexists. split; [reflexivity|]. split; [exact A1|].
      split; [exact Hb|split; [lia|split; [lia|split; [rewrite Lp; f_equal; f_equal; lia|]]]]. change (2 ^ 0) with 1. rewrite <- Hn. f_equal. lia. }
  destruct S as [bitbuf [bits [p2 [E2 S2]]]]. rewrite E2. cbn [bind].
  match goal with |- context [rfold ?f (zrange 0 size) ?s] => destruct (rfold_zrange f Seg 0 size s) as [[[[out bb] bt] s3] [E3 [L3 [V3 [rem [p3 [-> [A3 [_ [Hbt [_ [Lr _]]]]]]]]]]]] end.
  - lia.
  - exact S2.
  - intros i st Hi HS. apply seg_step; assumption.
  - rewrite E3. cbn [bind]. exists p3. replace (skipn (Z.to_nat size) ds) with (@nil Z) in Lr by (symmetry; apply skipn_all2; unfold zlen; lia). cbn [kodak_bits] in Lr.
    replace out with ds by (apply list_eq_znth; [lia|]; intros k Hk; symmetry; apply V3; lia). split; [reflexivity|].
    assert (zlen rem = 0) by lia.
    destruct rem; [exact A3|rewrite zlen_cons in *; pose proof (zlen_nonneg rem); lia].
Qed.
End One.
End Segment.
