(** Proofs about Huffman decoding, bit by bit. *)
From Coq Require Import String ZArith List Bool Lia ZifyBool ZifyNat.
From Verif Require Import Base Pumps Huffman Spec_Bits Spec_Huffman P_Base P_Bits P_Pumps P_Huff1 P_Huff2.
Import ListNotations.
Local Open Scope Z_scope.
Ltac Zify.zify_post_hook ::= Z.div_mod_to_equations.

Lemma as_i32_small : forall v, 0 <= v < 2 ^ 31 -> as_i32 v = v.
Proof.
  intros v H. change (2 ^ 31) with 2147483648 in H.
  unfold as_i32, swrap. change (2 ^ (32 - 1)) with 2147483648. change (2 ^ 32) with 4294967296.
  rewrite Z.mod_small; lia.
Qed.
Lemma as_u64_small : forall v, 0 <= v < 2 ^ 64 -> as_u64 v = v.
Proof. intros v H. apply Z.mod_small. assumption. Qed.
Lemma as_u32_small : forall v, 0 <= v < 2 ^ 32 -> as_u32 v = v.
Proof. intros v H. apply Z.mod_small. assumption. Qed.
Lemma shl_i32_one : forall (M : Mode) s, 0 <= s < 31 -> shl_i32 1 s = Ok (2 ^ s).
Proof.
  intros M s H. unfold shl_i32. rewrite shamt_ok by lia. cbn [bind]. f_equal.
  rewrite Z.shiftl_1_l. apply as_i32_small. split; [apply Z.lt_le_incl, pow2_pos; lia|apply Z.pow_lt_mono_r; lia].
Qed.

(** What is known of a table after initialisation. *)
Record table_ok (bits vals : list Z) (t : hufftable) : Prop := {
  to_vp : zlen (hvalptr t) = 17;
  to_mn : zlen (hmin t) = 17;
  to_mx : zlen (hmax t) = 18;
  to_ptr : pointers bits (hvalptr t) (hmin t) (hmax t) 16;
  to_last : znth (hmax t) 17 = 1048575;
  to_nb : numbits_upto bits vals (Fn bits 16) (hnumbits t);
  to_val : hval t = vals
}.

Section Table.
Variable bits : list Z.
Hypothesis Hlen : zlen bits = 17.
Hypothesis Hpos : Forall (fun c => 0 <= c) bits.
Hypothesis Hkraft : En bits 16 <= 2 ^ 16.
Hypothesis Hcount : Fn bits 16 <= 256.
Notation cn := (cn bits).
Notation Fn := (Fn bits).
Notation En := (En bits).
Notation hit := (hit bits).
Variable vals : list Z.
Hypothesis Hvals : zlen vals = 256.
Hypothesis Hbytes : bytes vals.
Variable M : Mode.

(** ** Initialisation *)
Definition tables_for (t0 : hufftable) (t1 : hufftable) : Prop :=
  table_ok bits vals t1 /\ hprec t1 = hprec t0 /\ hdng t1 = hdng t0.

Lemma initialize_ok : forall t0 ub, (debug = true -> 0 < cn 16 -> En 16 < 2 ^ 16) ->
  hbits t0 = bits -> hval t0 = vals -> zlen (hvalptr t0) = 17 -> zlen (hmin t0) = 17 -> zlen (hmax t0) = 18 ->
  hnumbits t0 = zeros 256 ->
  exists vp mn mx nb,
    huff_initialize t0 ub =
    (big <- (if ub then huff_bigtable (mkhuff bits vals mn mx vp nb (hbig t0) (hprec t0) (huse_big t0) (hdng t0) (hinit t0))
             else Ok (hbig t0)) ;;
     Ok (mkhuff bits vals mn mx vp nb big (hprec t0) ub (hdng t0) true)) /\
    forall big u ini, table_ok bits vals (mkhuff bits vals mn mx vp nb big (hprec t0) u (hdng t0) ini).
Proof.
  intros t0 ub Hfull E1 E2 L1 L2 L3 E3. unfold huff_initialize. rewrite E1, E2, E3.
  rewrite (huff_sizes_ok bits Hlen Hpos Hcount), bind_Ok.
  assert (U : upd (zl bits 16 ++ repeat 0 (257 - length (zl bits 16))) (Fn 16) 0 = Ok (hs bits)).
  { pose proof (zl_length bits Hpos 16) as L. rewrite <- L. rewrite upd_end by (unfold zlen in L; lia).
    unfold hs. f_equal. rewrite <- app_assoc. f_equal.
    destruct (257 - length (zl bits 16))%nat as [|m] eqn:Em; [unfold zlen in L; lia|].
    replace (S m - 1)%nat with m by lia. reflexivity. }
  rewrite U, bind_Ok. rewrite (huff_codes_ok bits Hpos Hkraft Hcount M Hfull), bind_Ok. fold (hc bits).
  destruct (pointers_ok bits Hlen Hpos Hcount (hvalptr t0) (hmin t0) (hmax t0) L1 L2 L3)
    as [vp [mn [mx [Ep [A1 [A2 [A3 [A4 A5]]]]]]]].
  rewrite Ep, bind_Ok.
  destruct (numbits_ok bits Hpos Hkraft Hcount vals Hvals Hbytes M) as [nb [En Hnb]]. rewrite En, bind_Ok.
  exists vp, mn, mx, nb. split; [reflexivity|]. intros big u ini. constructor; first [assumption | reflexivity].
Qed.

(** ** One symbol *)
Variable t : hufftable.
Hypothesis Ht : table_ok bits vals t.

Lemma max_test : forall l code, (l < 16)%nat -> 0 <= code -> 2 * En l <= code ->
  exists m, get (hmax t) (Z.of_nat (S l)) = Ok m /\ (m <? code) = (En (S l) <=? code).
Proof.
  intros l code Hl H0 H2. pose proof (to_mx _ _ _ Ht) as L. rewrite get_ok by lia. eexists. split; [reflexivity|].
  destruct (to_ptr _ _ _ Ht l Hl) as [P1 P2]. pose proof (cn_pos bits Hpos (S l)).
  change (En (S l)) with (2 * En l + cn (S l)) in *.
  destruct (Z_lt_ge_dec 0 (cn (S l))) as [C|C].
  - destruct (P1 C) as [_ [_ E]]. rewrite E. lia.
  - destruct (P2 ltac:(lia)) as [_ E]. rewrite E. lia.
Qed.

Lemma valptr_hit : forall n i, (n < 16)%nat -> 0 <= i < cn (S n) ->
  get (hvalptr t) (Z.of_nat (S n)) = Ok (Fn n) /\ get (hmin t) (Z.of_nat (S n)) = Ok (2 * En n) /\
  get (hval t) (Fn n + i) = Ok (znth vals (Fn n + i)) /\ 0 <= Fn n <= 256 /\ Fn n + i < 256.
Proof.
  intros n i Hn Hi. pose proof (to_vp _ _ _ Ht). pose proof (to_mn _ _ _ Ht).
  destruct (to_ptr _ _ _ Ht n Hn) as [P1 _]. destruct (P1 ltac:(lia)) as [A [B _]].
  rewrite !get_ok by lia. rewrite A, B, (to_val _ _ _ Ht).
  pose proof (Fn_mono bits Hpos (S n) 16 Hn) as HF. change (Fn (S n)) with (Fn n + cn (S n)) in HF.
  pose proof (Fn_pos bits Hpos n).
  rewrite get_ok by lia. repeat split; lia.
Qed.

Lemma nb_lookup : forall bs, (8 <= length bs)%nat ->
  exists v, get (hnumbits t) (number (firstn 8 bs)) = Ok v /\
  ((exists n i, (n < 8)%nat /\ hit bs n i /\ v = entry8 bits vals n i) \/
   (v = 0 /\ forall n i, (n < 8)%nat -> ~ hit bs n i)).
Proof.
  intros bs Hb. destruct (to_nb _ _ _ Ht) as [L P].
  pose proof (number_range (firstn 8 bs)) as R. rewrite firstn_length_le in R by assumption.
  change (2 ^ Z.of_nat 8) with 256 in R.
  rewrite get_ok by lia. eexists. split; [reflexivity|].
  destruct (P _ R) as [P1 P2].
  assert (E8 : zbits 8 (number (firstn 8 bs)) = firstn 8 bs).
  { rewrite <- (zbits_number (firstn 8 bs)) at 2. rewrite firstn_length_le by assumption. reflexivity. }
  rewrite E8 in P1, P2.
  destruct (hit_dec bits bs 8 ltac:(lia) Hb) as [[n [i [Hn Hh]]]|N].
  - left. exists n, i. split; [assumption|]. split; [assumption|].
    apply P1; [assumption| |apply hit_firstn; [lia|assumption]].
    destruct Hh as [A [_ [B _]]]. pose proof (class_lt bits Hpos n i 16 0 ltac:(lia) ltac:(lia) ltac:(lia) ltac:(lia)). lia.
  - right. split; [|assumption]. apply P2. intros n i Hn _ Hh. apply (N n i Hn).
    apply (hit_prefix bits _ bs _ _ Hh); [lia|]. rewrite firstn_firstn, Nat.min_l by lia. reflexivity.
Qed.

Lemma get1 : forall k p bs, k <> LSB -> Repr k p bs -> (1 <= length bs)%nat ->
  exists p', get_bits k p 1 = Ok (Z.b2z (nth 0 bs false), p') /\ Repr k p' (skipn 1 bs).
Proof.
  intros k p bs Hk R Hl. destruct (get_bits_ok k p bs 1 R ltac:(lia) Hl) as [p' [E R']].
  exists p'. split; [|assumption]. change (Z.of_nat 1) with 1 in E. rewrite E. do 2 f_equal.
  destruct bs as [|b bs]; [cbn [length] in Hl; lia|].
  destruct k; [congruence| | |]; cbn; destruct b; reflexivity.
Qed.

(** The walk over the code lengths. *)
Lemma walk_hit : forall fuel k bs n i l p, k <> LSB -> hit bs n i -> (l <= n)%nat -> (n - l < fuel)%nat ->
  Repr k p (skipn (S l) bs) -> 
  exists p', len_walk fuel k (hmax t) (number (firstn (S l) bs)) (Z.of_nat (S l)) p
             = Ok (number (firstn (S n) bs), Z.of_nat (S n), p') /\ Repr k p' (skipn (S n) bs).
Proof.
  induction fuel; intros k bs n i l p Hk Hh Hl Hf R; [lia|]. cbn [len_walk].
  pose proof Hh as Hh0. destruct Hh as [Hn [Hb [Hi Hc]]].
  pose proof (number_range (firstn (S l) bs)) as R0. rewrite firstn_length_le in R0 by lia.
  assert (HH : 2 ^ Z.of_nat (S l) <= 2 ^ 16) by (apply Z.pow_le_mono_r; lia).
  change (2 ^ 16) with 65536 in HH.
  assert (Hlow : 2 * En l <= number (firstn (S l) bs)).
  { pose proof (hit_sep bits Hpos bs n i l Hh0 Hl) as S0. rewrite number_firstn_S by lia.
    destruct (nth l bs false); cbn [Z.b2z]; lia. }
  destruct (max_test l (number (firstn (S l) bs)) ltac:(lia) ltac:(lia) Hlow) as [m [Em Ec]].
  rewrite Em. cbn [bind]. rewrite as_i32_small by (change (2 ^ 31) with 2147483648; lia). rewrite Ec.
  destruct (Nat.eq_dec l n) as [->|D].
  - rewrite Hc. change (En (S n)) with (2 * En n + cn (S n)).
    replace (2 * En n + cn (S n) <=? 2 * En n + i) with false by lia. exists p. split; [reflexivity|assumption].
  - pose proof (hit_sep bits Hpos bs n i (S l) Hh0 ltac:(lia)) as S1.
    replace (En (S l) <=? number (firstn (S l) bs)) with true by lia.
    destruct (get1 k p _ Hk R) as [p1 [E1 R1]]; [rewrite skipn_length; lia|]. rewrite E1. cbn [bind].
    rewrite skipn_skipn' in R1. replace (S l + 1)%nat with (S (S l)) in R1 by lia.
    rewrite nth_skipn', Nat.add_0_r.
    assert (E2 : Z.lor (Z.shiftl (number (firstn (S l) bs)) 1) (Z.b2z (nth (S l) bs false)) = number (firstn (S (S l)) bs)).
    { rewrite (number_firstn_S (S l)) by lia. rewrite lor_shiftl_add by (try lia; destruct (nth (S l) bs false); cbn; lia).
      change (2 ^ 1) with 2. lia. }
    rewrite E2. replace (Z.of_nat (S l) + 1) with (Z.of_nat (S (S l))) by lia.
    apply (IHfuel k bs n i (S l) p1 Hk Hh0); [lia|lia|assumption].
Qed.
Lemma walk_miss : forall fuel k bs l p, k <> LSB -> (17 <= length bs)%nat -> (forall n i, (n < 16)%nat -> ~ hit bs n i) ->
  (l <= 16)%nat -> (16 - l < fuel)%nat -> Repr k p (skipn (S l) bs) ->
  exists c p', len_walk fuel k (hmax t) (number (firstn (S l) bs)) (Z.of_nat (S l)) p = Ok (c, 17, p').
Proof.
  induction fuel; intros k bs l p Hk Hb N Hl Hf R; [lia|]. cbn [len_walk].
  pose proof (number_range (firstn (S l) bs)) as R0. rewrite firstn_length_le in R0 by lia.
  assert (HH : 2 ^ Z.of_nat (S l) <= 2 ^ 17) by (apply Z.pow_le_mono_r; lia).
  change (2 ^ 17) with 131072 in HH.
  destruct (Nat.eq_dec l 16) as [->|D].
  - change (Z.of_nat 17) with 17. rewrite get_ok by (rewrite (to_mx _ _ _ Ht); lia). rewrite (to_last _ _ _ Ht). cbn [bind].
    rewrite as_i32_small by (change (2 ^ 31) with 2147483648; lia).
    replace (1048575 <? number (firstn 17 bs)) with false by lia. eauto.
  - assert (Hlow : En l <= number (firstn l bs)) by (apply (no_hit bits); [lia|lia|intros n i Hn; apply N; lia]).
    assert (Hlow1 : En (S l) <= number (firstn (S l) bs)) by (apply (no_hit bits); [lia|lia|intros n i Hn; apply N; lia]).
    assert (H2 : 2 * En l <= number (firstn (S l) bs)) by (rewrite number_firstn_S by lia; destruct (nth l bs false); cbn [Z.b2z]; lia).
    destruct (max_test l (number (firstn (S l) bs)) ltac:(lia) ltac:(lia) H2) as [m [Em Ec]].
    rewrite Em. cbn [bind]. rewrite as_i32_small by (change (2 ^ 31) with 2147483648; lia). rewrite Ec.
    replace (En (S l) <=? number (firstn (S l) bs)) with true by lia.
    destruct (get1 k p _ Hk R) as [p1 [E1 R1]]; [rewrite skipn_length; lia|]. rewrite E1. cbn [bind].
    rewrite skipn_skipn' in R1. replace (S l + 1)%nat with (S (S l)) in R1 by lia.
    rewrite nth_skipn', Nat.add_0_r.
    assert (E2 : Z.lor (Z.shiftl (number (firstn (S l) bs)) 1) (Z.b2z (nth (S l) bs false)) = number (firstn (S (S l)) bs)).
    { rewrite (number_firstn_S (S l)) by lia. rewrite lor_shiftl_add by (try lia; destruct (nth (S l) bs false); cbn; lia).
      change (2 ^ 1) with 2. lia. }
    rewrite E2. replace (Z.of_nat (S l) + 1) with (Z.of_nat (S (S l))) by lia.
    apply IHfuel; try assumption; lia.
Qed.

(** Words of more than eight bits are refused when longer than the precision or
    when the first symbol of their length is number 255. *)
Definition reachable (n : nat) : Prop := (n < 8)%nat \/ (Z.of_nat (S n) <= hprec t /\ Fn n <> 255).

Lemma entry8_parts : forall n i, (n < 8)%nat -> (0 <= i < cn (S n)) ->
  Z.land (entry8 bits vals n i) 15 = Z.of_nat (S n) /\ Z.shiftr (entry8 bits vals n i) 4 = znth vals (Fn n + i).
Proof.
  intros n i Hn Hi. unfold entry8. destruct (valptr_hit n i ltac:(lia) Hi) as [_ [_ [_ [A B]]]].
  pose proof (znth_Forall byte vals (Fn n + i) Hbytes ltac:(lia)) as Hb. unfold byte in Hb.
  change 15 with (2 ^ 4 - 1). rewrite land_ones_mod by lia. rewrite Z.shiftr_div_pow2 by lia. change (2 ^ 4) with 16. lia.
Qed.

Lemma huff_len_hit : forall k p bs n i, k <> LSB -> Repr k p bs -> (8 <= length bs)%nat -> hit bs n i -> reachable n ->
  exists p', huff_len k t p = Ok (znth vals (Fn n + i), p') /\ Repr k p' (skipn (S n) bs).
Proof.
  intros k p bs n i Hk R H8 Hh Hr. unfold huff_len.
  pose proof Hh as Hh0. destruct Hh as [Hn [Hb [Hi Hc]]].
  destruct (peek_ok k p bs 8 R ltac:(lia) H8) as [p1 [E1 [R1 N1]]]. change (Z.of_nat 8) with 8 in *.
  assert (EV : value_of k (firstn 8 bs) = number (firstn 8 bs)) by (destruct k; [congruence| | |]; reflexivity).
  rewrite EV in E1. rewrite E1. cbn [bind].
  destruct (nb_lookup bs H8) as [v [Ev Hv]]. rewrite Ev. cbn [bind].
  destruct Hv as [[n' [i' [Hn' [Hh' Ev']]]]|[Ev0 Hno]].
  - destruct (hit_unique bits Hpos bs n i n' i' Hh0 Hh') as [<- <-].
    destruct (entry8_parts n i Hn' Hi) as [A B]. rewrite Ev', A, B.
    replace (negb (Z.of_nat (S n) =? 0)) with true by lia.
    destruct (consume_ok k p1 bs (S n) R1 ltac:(lia)) as [p2 [E2 [R2 _]]]. rewrite E2. cbn [bind].
    exists p2. split; [reflexivity|assumption].
  - assert (8 <= n)%nat by (destruct (Nat.le_gt_cases 8 n); [assumption|exfalso; apply (Hno n i); assumption]).
    rewrite Ev0. change (Z.land 0 15) with 0. change (negb (0 =? 0)) with false. cbv iota.
    destruct (consume_ok k p1 bs 8 R1 ltac:(lia)) as [p2 [E2 [R2 _]]]. change (Z.of_nat 8) with 8 in E2. rewrite E2. cbn [bind].
    destruct (walk_hit 12 k bs n i 7 p2 Hk Hh0 ltac:(lia) ltac:(lia) R2) as [p3 [E3 R3]].
    change (Z.of_nat 8) with 8 in E3. rewrite E3. cbn [bind].
    destruct Hr as [Hr|[Hr1 Hr2]]; [lia|]. replace (hprec t <? Z.of_nat (S n)) with false by lia.
    destruct (valptr_hit n i Hn Hi) as [A [B [C [D1 D2]]]]. rewrite A. cbn [bind].
    replace (Fn n =? 255) with false by lia. rewrite B. cbn [bind].
    rewrite usub_ok by (rewrite Hc; pose proof (En_pos bits Hpos n); pose proof (En_bound bits Hpos Hkraft (S n) ltac:(lia)) as EB;
      change (En (S n)) with (2 * En n + cn (S n)) in EB;
      assert (2 ^ Z.of_nat (S n) <= 2 ^ 16) by (apply Z.pow_le_mono_r; lia); change (2 ^ 16) with 65536 in *; change (2 ^ 64) with 18446744073709551616; lia).
    cbn [bind]. rewrite as_u64_small by (change (2 ^ 64) with 18446744073709551616; lia).
    unfold uadd. rewrite arith_u_ok by (change (2 ^ 64) with 18446744073709551616; lia). cbn [bind].
    replace (Fn n + (number (firstn (S n) bs) - 2 * En n)) with (Fn n + i) by lia. rewrite C. cbn [bind].
    exists p3. split; [reflexivity|assumption].
Qed.
Lemma huff_len_unreachable : forall k p bs n i, k <> LSB -> Repr k p bs -> (8 <= length bs)%nat -> hit bs n i -> ~ reachable n ->
  huff_len k t p = Err "ljpeg: bad Huffman code".
Proof.
  intros k p bs n i Hk R H8 Hh Hr. unfold huff_len.
  pose proof Hh as Hh0. destruct Hh as [Hn [Hb [Hi Hc]]].
  destruct (peek_ok k p bs 8 R ltac:(lia) H8) as [p1 [E1 [R1 N1]]]. change (Z.of_nat 8) with 8 in *.
  assert (EV : value_of k (firstn 8 bs) = number (firstn 8 bs)) by (destruct k; [congruence| | |]; reflexivity).
  rewrite EV in E1. rewrite E1. cbn [bind].
  destruct (nb_lookup bs H8) as [v [Ev Hv]]. rewrite Ev. cbn [bind].
  destruct Hv as [[n' [i' [Hn' [Hh' Ev']]]]|[Ev0 Hno]].
  - destruct (hit_unique bits Hpos bs n i n' i' Hh0 Hh') as [<- <-]. exfalso. apply Hr. left. assumption.
  - assert (8 <= n)%nat by (destruct (Nat.le_gt_cases 8 n); [assumption|exfalso; apply (Hno n i); assumption]).
    rewrite Ev0. change (Z.land 0 15) with 0. change (negb (0 =? 0)) with false. cbv iota.
    destruct (consume_ok k p1 bs 8 R1 ltac:(lia)) as [p2 [E2 [R2 _]]]. change (Z.of_nat 8) with 8 in E2. rewrite E2. cbn [bind].
    destruct (walk_hit 12 k bs n i 7 p2 Hk Hh0 ltac:(lia) ltac:(lia) R2) as [p3 [E3 R3]].
    change (Z.of_nat 8) with 8 in E3. rewrite E3. cbn [bind].
    destruct (hprec t <? Z.of_nat (S n)) eqn:Ep; [reflexivity|].
    destruct (valptr_hit n i Hn Hi) as [A _]. rewrite A. cbn [bind].
    destruct (Fn n =? 255) eqn:E255; [reflexivity|]. exfalso. apply Hr. right. lia.
Qed.
Lemma huff_len_miss : forall k p bs, k <> LSB -> Repr k p bs -> (17 <= length bs)%nat -> hprec t <= 16 ->
  (forall n i, (n < 16)%nat -> ~ hit bs n i) -> huff_len k t p = Err "ljpeg: bad Huffman code".
Proof.
  intros k p bs Hk R H8 Hp N. unfold huff_len.
  destruct (peek_ok k p bs 8 R ltac:(lia) ltac:(lia)) as [p1 [E1 [R1 N1]]]. change (Z.of_nat 8) with 8 in *.
  assert (EV : value_of k (firstn 8 bs) = number (firstn 8 bs)) by (destruct k; [congruence| | |]; reflexivity).
  rewrite EV in E1. rewrite E1. cbn [bind].
  destruct (nb_lookup bs ltac:(lia)) as [v [Ev Hv]]. rewrite Ev. cbn [bind].
  destruct Hv as [[n' [i' [Hn' [Hh' Ev']]]]|[Ev0 Hno]]; [exfalso; apply (N n' i'); [lia|assumption]|].
  rewrite Ev0. change (Z.land 0 15) with 0. change (negb (0 =? 0)) with false. cbv iota.
  destruct (consume_ok k p1 bs 8 R1 ltac:(lia)) as [p2 [E2 [R2 _]]]. change (Z.of_nat 8) with 8 in E2. rewrite E2. cbn [bind].
  destruct (walk_miss 12 k bs 7 p2 Hk H8 N ltac:(lia) ltac:(lia) R2) as [c [p3 E3]].
  change (Z.of_nat 8) with 8 in E3. rewrite E3. cbn [bind].
  replace (hprec t <? 17) with true by lia. reflexivity.
Qed.

(** ** One difference *)
Lemma pow_range : forall n : nat, (1 <= n <= 15)%nat -> 2 <= 2 ^ Z.of_nat n <= 32768 /\ 2 ^ Z.of_nat n = 2 * 2 ^ (Z.of_nat n - 1).
Proof.
  intros n H. destruct n; [lia|]. rewrite pow2_S. replace (Z.of_nat (S n) - 1) with (Z.of_nat n) by lia.
  pose proof (pow2_pos_nat n). assert (2 ^ Z.of_nat n <= 2 ^ 14) by (apply Z.pow_le_mono_r; lia). change (2 ^ 14) with 16384 in *. lia.
Qed.
Lemma top_bit : forall n v, 1 <= n -> 0 <= v < 2 ^ n -> (Z.land v (2 ^ (n - 1)) =? 0) = negb (2 ^ (n - 1) <=? v).
Proof.
  intros n v Hn Hv.
  assert (E2 : 2 ^ n = 2 * 2 ^ (n - 1)) by (rewrite <- Z.pow_succ_r by lia; f_equal; lia).
  pose proof (pow2_pos (n - 1) ltac:(lia)) as Hp.
  assert (Hb : Z.testbit v (n - 1) = (2 ^ (n - 1) <=? v)).
  { rewrite Z.testbit_odd, Z.shiftr_div_pow2 by lia.
    destruct (2 ^ (n - 1) <=? v) eqn:E.
    - assert (v / 2 ^ (n - 1) = 1) as -> by (symmetry; apply Z.div_unique with (v - 2 ^ (n - 1)); lia). reflexivity.
    - rewrite Z.div_small by lia. reflexivity. }
  destruct (2 ^ (n - 1) <=? v) eqn:E; cbn [negb].
  - apply Z.eqb_neq. intros H0. assert (Z.testbit (Z.land v (2 ^ (n - 1))) (n - 1) = false) by (rewrite H0; apply Z.testbit_0_l).
    rewrite Z.land_spec, Hb, Z.pow2_bits_true in H by lia. discriminate.
  - apply Z.eqb_eq. apply Z.bits_inj'. intros j Hj. rewrite Z.land_spec, Z.testbit_0_l.
    destruct (Z.eq_dec j (n - 1)) as [->|D]; [rewrite Hb; reflexivity|].
    rewrite Z.pow2_bits_false by lia. apply andb_false_r.
Qed.
Lemma huff_diff_ok : forall k p bs (n : nat), k <> LSB -> Repr k p bs -> (n <= 15)%nat -> (n <= length bs)%nat ->
  exists p', huff_diff k t p (Z.of_nat n) = Ok (difference n (number (firstn n bs)), p') /\ Repr k p' (skipn n bs).
Proof.
  intros k p bs n Hk R Hn Hl. unfold huff_diff, difference.
  destruct (Nat.eqb n 0) eqn:E0.
  - replace n with 0%nat by lia. exists p. split; [reflexivity|assumption].
  - replace (Z.of_nat n =? 0) with false by lia. replace (Z.of_nat n =? 16) with false by lia.
    destruct (get_bits_ok k p bs n R ltac:(lia) Hl) as [p' [E R']].
    assert (EV : value_of k (firstn n bs) = number (firstn n bs)) by (destruct k; [congruence| | |]; reflexivity).
    rewrite EV in E. rewrite E. cbn [bind].
    destruct (pow_range n ltac:(lia)) as [P1 P2].
    pose proof (number_range (firstn n bs)) as NR. rewrite firstn_length_le in NR by assumption.
    rewrite as_i32_small by (change (2 ^ 31) with 2147483648; lia).
    unfold u32sub. rewrite arith_u_ok by (change (2 ^ 32) with 4294967296; lia). cbn [bind].
    rewrite shl_i32_one by lia. cbn [bind]. rewrite top_bit by lia.
    exists p'. split; [|assumption].
    destruct (2 ^ (Z.of_nat n - 1) <=? number (firstn n bs)) eqn:Eb; cbn [negb]; [reflexivity|].
    rewrite shl_i32_one by lia. cbn [bind]. unfold i32sub.
    rewrite arith_s_ok by (change (2 ^ (32 - 1)) with 2147483648; lia). cbn [bind].
    rewrite arith_s_ok by (change (2 ^ (32 - 1)) with 2147483648; lia). reflexivity.
Qed.
Lemma huff_diff_16 : forall k p bs, k <> LSB -> Repr k p bs -> (16 <= length bs)%nat ->
  exists p', huff_diff k t p 16 = Ok (-32768, p') /\ Repr k p' (skipn (if hdng t then 16 else 0) bs).
Proof.
  intros k p bs Hk R Hl. unfold huff_diff. change (16 =? 0) with false. change (16 =? 16) with true. cbv iota.
  destruct (hdng t).
  - destruct (get_bits_ok k p bs 16 R ltac:(lia) Hl) as [p' [E R']]. change (Z.of_nat 16) with 16 in E. rewrite E.
    exists p'. split; [reflexivity|assumption].
  - exists p. split; [reflexivity|assumption].
Qed.
End Table.
