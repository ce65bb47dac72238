(** Proofs about Sony's compression of blocks (C58). *)
From Coq Require Import String ZArith List Bool Lia ZifyBool ZifyNat.
From Verif Require Import Base Bytes Pumps Packed Threads Lookup Arw Spec_Bits Spec_Pump Spec_Stream Spec_Image Spec_Packed Spec_Ljpeg Spec_Curve Spec_Nikon Spec_Sony
  P_Base P_Bits P_Threads P_Pumps P_Packed3 P_Huff1 P_Huff3 P_Huff4 P_Huff5 P_Ljpeg1 P_Lookup P_Pred1 P_Pred7.
Import ListNotations.
Local Open Scope Z_scope.

Lemma lsb_word_number : forall n v, 0 <= v < 2 ^ Z.of_nat n -> number_lsb (sample_bits_lsb n v) = v.
Proof. intros n v H. unfold sample_bits_lsb. rewrite number_lsb_rev, sample_bits_zbits, number_zbits. apply Z.mod_small. exact H. Qed.
Lemma lsb_word_read : forall {M : Mode} n v p tail, (n <= 32)%nat -> 0 <= v < 2 ^ Z.of_nat n -> Repr LSB p (sample_bits_lsb n v ++ tail) ->
  exists p', get_bits LSB p (Z.of_nat n) = Ok (v, p') /\ Repr LSB p' tail.
Proof.
  intros M n v p tail Hn Hv R. pose proof (sample_bits_lsb_length n v) as Lb.
  destruct (get_bits_ok LSB p _ n R Hn ltac:(rewrite app_length; lia)) as [p2 [E2 R2]].
  rewrite <- Lb in R2 at 1. rewrite skipn_app, skipn_all, Nat.sub_diag in R2. exists p2. split; [|exact R2]. rewrite E2. do 2 f_equal.
  change (value_of LSB) with number_lsb. rewrite <- Lb at 1. rewrite firstn_app, firstn_all, Nat.sub_diag. cbn [firstn]. rewrite app_nil_r. apply lsb_word_number. exact Hv.
Qed.
Lemma noise_add : forall n m first, noise_after (n + m) first = noise_after n (noise_after m first).
Proof. induction n as [|n IH]; intros m first; [reflexivity|]. cbn [Nat.add noise_after]. rewrite IH. reflexivity. Qed.
Lemma left_out_shift : forall delta, 0 <= delta < 2048 -> Z.max 0 (32 - leading_zeros delta - 7) = left_out delta /\ 0 <= left_out delta <= 4.
Proof.
  intros delta H. unfold leading_zeros, left_out. destruct (delta =? 0) eqn:E0; [replace (delta <? 128) with true by lia; lia|].
  pose proof (Z.log2_nonneg delta). destruct (delta <? 128) eqn:E.
  - assert (Z.log2 delta < 7) by (apply Z.log2_lt_pow2; cbn; lia). lia.
  - assert (7 <= Z.log2 delta) by (apply Z.log2_le_pow2; cbn; lia). assert (Z.log2 delta < 11) by (apply Z.log2_lt_pow2; cbn; lia). lia.
Qed.
Lemma left_out_fits : forall delta, 0 <= delta < 2048 -> delta / 2 ^ left_out delta < 128.
Proof.
  intros delta H. pose proof (left_out_shift delta H) as [_ L]. apply Z.div_lt_upper_bound; [apply Z.pow_pos_nonneg; lia|].
  unfold left_out in *. destruct (delta <? 128) eqn:E; [change (2 ^ 0) with 1; lia|].
  replace (2 ^ (Z.log2 delta - 6) * 128) with (2 ^ Z.succ (Z.log2 delta)); [apply Z.log2_spec; lia|].
  replace (Z.succ (Z.log2 delta)) with (Z.log2 delta - 6 + 7) by lia. rewrite Z.pow_add_r by lia. reflexivity.
Qed.
Section Block.
Context {M : Mode}.
Variables (v : Z -> Z) (imax imin : Z).
Hypothesis Hv : forall i, 0 <= i < 16 -> 0 <= v i < 2048.
Hypothesis He : extremes v imax imin.
Let delta := v imax - v imin.
Let s := left_out delta.
Lemma delta_range : 0 <= delta < 2048.
Proof. destruct He as (H1 & H2 & H3 & H4). unfold delta. pose proof (H4 imax H1). pose proof (Hv imax H1). pose proof (Hv imin H2). lia. Qed.
Lemma word_range : forall i, 0 <= i < 16 -> 0 <= block_word v imax imin i < 128.
Proof.
  intros i Hi. destruct He as (H1 & H2 & H3 & H4). pose proof (H4 i Hi). unfold block_word. fold delta.
  pose proof (left_out_fits delta delta_range). pose proof (left_out_shift delta delta_range) as [_ L].
  assert (0 < 2 ^ left_out delta) by (apply Z.pow_pos_nonneg; lia). split; [apply Z.div_pos; lia|].
  eapply Z.le_lt_trans; [|exact H0]. apply Z.div_le_mono; [lia|]. unfold delta. lia.
Qed.
Lemma value_range : forall i, 0 <= i < 16 -> v i - (2 ^ s - 1) <= block_value v imax imin i <= v i.
Proof.
  intros i Hi. unfold block_value. pose proof (left_out_shift delta delta_range) as [_ L]. assert (0 < 2 ^ s) by (apply Z.pow_pos_nonneg; unfold s; lia).
  destruct ((i =? imax) || (i =? imin)); [lia|]. unfold block_word. fold delta s.
  pose proof (Z.div_mod (v i - v imin) (2 ^ s) ltac:(lia)). pose proof (Z.mod_pos_bound (v i - v imin) (2 ^ s) ltac:(lia)). lia.
Qed.
Lemma value_nonneg : forall i, 0 <= i < 16 -> 0 <= block_value v imax imin i.
Proof.
  intros i Hi. unfold block_value. destruct ((i =? imax) || (i =? imin)); [apply Hv; exact Hi|].
  destruct He as (H1 & H2 & _). pose proof (Hv imin H2). pose proof (word_range i Hi). pose proof (left_out_shift delta delta_range) as [_ L].
  fold delta s. assert (0 < 2 ^ s) by (apply Z.pow_pos_nonneg; unfold s; lia). nia.
Qed.
Let f i := if (i =? imax) || (i =? imin) then [] else sample_bits_lsb 7 (block_word v imax imin i).
Lemma value_read : forall i p tail, 0 <= i < 16 -> Repr LSB p (f i ++ tail) ->
  exists p', arw2_value i imax imin (v imax) (v imin) s p = Ok (block_value v imax imin i, p') /\ Repr LSB p' tail.
Proof.
  intros i p tail Hi R. unfold arw2_value, block_value. unfold f in R. destruct (i =? imax) eqn:E1.
  - exists p. assert (i = imax) as -> by lia. cbn [orb]. split; [reflexivity|exact R].
  - destruct (i =? imin) eqn:E2; [exists p; assert (i = imin) as -> by lia; cbn [orb]; split; [reflexivity|exact R]|]. cbn [orb] in *.
    pose proof (word_range i Hi) as Wr. destruct (lsb_word_read 7 _ p tail ltac:(lia) Wr R) as (p' & E & R'). change (Z.of_nat 7) with 7 in E. rewrite E. cbn [bind].
    pose proof (left_out_shift delta delta_range) as [_ L]. fold s in L. rewrite Z.shiftl_mul_pow2 by lia. fold delta s.
    pose proof (value_range i Hi) as V. unfold block_value in V. rewrite E1, E2 in V. cbn [orb] in V. fold delta s in V.
    assert (0 < 2 ^ s) by (apply Z.pow_pos_nonneg; lia). pose proof (Hv i Hi). destruct He as (_ & H2 & _). pose proof (Hv imin H2).
    set (x := block_word v imax imin i) in *. assert (0 <= x * 2 ^ s) by nia.
    rewrite as_u32_small by (change (2 ^ 32) with 4294967296; lia). unfold u32add. rewrite arith_u_ok by (change (2 ^ 32) with 4294967296; lia). cbn [bind].
    exists p'. split; [|exact R']. do 2 f_equal. lia.
Qed.

Variable curve : list Z.
Hypothesis Cs : samples curve.
Hypothesis Ci : increasing curve.
Hypothesis Cn : not_too_steep curve.
Hypothesis Cl : 4095 <= zlen curve.
Notation tbl := (map (entry curve) (zrange 0 (zlen curve))).
Lemma half_read : forall j p tail rand out, j = 0 \/ j = 1 -> 0 <= rand < 2 ^ 32 -> zlen out = 32 -> Repr LSB p (block_bits v imax imin ++ tail) ->
  exists p' out', arw2_half tbl j (p, rand, out) = Ok (p', noise_after 16 rand, out') /\ Repr LSB p' tail /\ zlen out' = 32 /\
    forall k, 0 <= k < 32 -> znth out' k = if k mod 2 =? j then toned curve (2 * block_value v imax imin (k / 2)) (noise_after (Z.to_nat (k / 2)) rand) else znth out k.
Proof.
  intros j p tail rand out Hj Hr Ho R. pose proof He as (H1 & H2 & H3 & H4). pose proof (Hv imax H1) as B1. pose proof (Hv imin H2) as B2.
  unfold block_bits in R. rewrite <- !app_assoc in R. unfold arw2_half.
  destruct (lsb_word_read 11 _ p _ ltac:(lia) B1 R) as (p1 & E1 & R1). change (Z.of_nat 11) with 11 in *. rewrite E1. cbn [bind].
  destruct (lsb_word_read 11 _ p1 _ ltac:(lia) B2 R1) as (p2 & E2 & R2). change (Z.of_nat 11) with 11 in *. rewrite E2. cbn [bind].
  pose proof delta_range as Dr. unfold u32sub. rewrite arith_u_ok by (change (2 ^ 32) with 4294967296; fold delta; lia). cbn [bind].
  destruct (lsb_word_read 4 _ p2 _ ltac:(lia) H1 R2) as (p3 & E3 & R3). change (Z.of_nat 4) with 4 in *. rewrite E3. cbn [bind].
  destruct (lsb_word_read 4 _ p3 _ ltac:(lia) H2 R3) as (p4 & E4 & R4). change (Z.of_nat 4) with 4 in *. rewrite E4. cbn [bind].
  fold delta. rewrite (proj1 (left_out_shift delta Dr)). fold s.
  rewrite upto_zrange in R4.
  match goal with |- context [rfold ?F (zrange 0 16) _] =>
  destruct (rfold_zrange F (fun i st => let '(p, r, o) := st in Repr LSB p (flat_map f (zrange i 16) ++ tail) /\ r = noise_after (Z.to_nat i) rand /\ zlen o = 32 /\
    forall k, 0 <= k < 32 -> znth o k = if (k mod 2 =? j) && (k / 2 <? i) then toned curve (2 * block_value v imax imin (k / 2)) (noise_after (Z.to_nat (k / 2)) rand) else znth out k) 0 16 (p4, rand, out))
    as ([[p5 r5] o5] & E5 & R5 & Q5 & L5 & N5) end; [lia| | |].
  - split; [exact R4|]. split; [reflexivity|]. split; [exact Ho|]. intros k Hk. replace (k / 2 <? 0) with false; [rewrite andb_false_r; reflexivity|]. pose proof (Z.div_pos k 2). lia.
  - intros i [[p6 r6] o6] Hi (R6 & Q6 & L6 & N6). rewrite zrange_cons in R6 by lia. cbn [flat_map] in R6. rewrite <- app_assoc in R6.
    destruct (value_read i p6 _ Hi R6) as (p7 & E7 & R7). rewrite E7. cbn [bind].
    pose proof (value_range i Hi) as V. pose proof (value_nonneg i Hi) as V'. pose proof (Hv i Hi).
    pose proof (left_out_shift delta Dr) as [_ L]. fold s in L. assert (0 < 2 ^ s) by (apply Z.pow_pos_nonneg; lia).
    rewrite Z.shiftl_mul_pow2 by lia. change (2 ^ 1) with 2. rewrite as_u16_sample by (unfold sample; lia).
    pose proof (noise_range (Z.to_nat i) rand Hr) as Nr. rewrite <- Q6 in Nr.
    rewrite (Z.mul_comm _ 2), dither_exact; [|assumption..|lia|assumption]. cbn [bind].
    rewrite upd_ok by lia. cbn [bind]. eexists. split; [reflexivity|]. cbv beta iota.
    split; [exact R7|]. split; [replace (Z.to_nat (i + 1)) with (S (Z.to_nat i)) by lia; cbn [noise_after]; rewrite Q6; reflexivity|].
    split; [rewrite zlen_upd_nat; exact L6|]. intros k Hk. rewrite znth_upd_nat by lia.
    pose proof (Z.div_mod k 2 ltac:(lia)). pose proof (Z.mod_pos_bound k 2 ltac:(lia)).
    destruct (k =? j + i * 2) eqn:Ek.
    + replace (k mod 2 =? j) with true by lia. replace (k / 2 <? i + 1) with true by lia. cbn [andb]. replace (k / 2) with i by lia. rewrite Q6. reflexivity.
    + rewrite N6 by exact Hk. replace ((k mod 2 =? j) && (k / 2 <? i + 1)) with ((k mod 2 =? j) && (k / 2 <? i)) by lia. reflexivity.
  - exists p5, o5. rewrite E5. split; [rewrite Q5; reflexivity|]. split; [exact R5|]. split; [exact L5|].
    intros k Hk. rewrite N5 by exact Hk. replace (k / 2 <? 16) with true; [rewrite andb_true_r; reflexivity|]. symmetry. apply Z.ltb_lt. apply Z.div_lt_upper_bound; lia.
Qed.
End Block.
