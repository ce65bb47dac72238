(** The bit readers refine bit strings. *)
From Coq Require Import ZArith List Bool Lia ZifyBool ZifyNat.
From Verif Require Import Base Bytes Pumps Spec_Bits Spec_Pump Clients P_Base P_Bits.
Import ListNotations.
Local Open Scope Z_scope.
Ltac Zify.zify_post_hook ::= Z.div_mod_to_equations.

Ltac destruct_pairs := repeat match goal with x : (_ * _)%type |- _ => destruct x end.

(** Representation. *)
Definition value_of (k : pkind) (l : list bool) : Z :=
  match k with LSB => number_lsb l | _ => number l end.
Definition cache (k : pkind) (p : pump) : list bool :=
  match k with
  | LSB => zlsb (Z.to_nat (pnbits p)) (pbits p)
  | _ => zbits (Z.to_nat (pnbits p)) (pbits p)
  end.
Definition source (k : pkind) (l : list Z) : list bool :=
  match k with
  | LSB => bits_of_lsb (whole_words l)
  | MSB => bits_of (whole_words l)
  | MSB32 => bits_of (swapped 4 l)
  | JPEG => bits_of (unstuff l)
  end.
Definition rest (p : pump) : list Z := skipn (Z.to_nat (ppos p)) (pbuf p).
Definition pending (k : pkind) (p : pump) : list bool :=
  cache k p ++ (if pfin p then [] else source k (rest p)).

Definition jpeg_ok (buf : list Z) : Prop :=
  4 <= zlen buf < 2 ^ 64 /\ last buf 0 <> 255.

Record wf (k : pkind) (p : pump) : Prop := {
  wf_bytes : bytes (pbuf p);
  wf_pos : 0 <= ppos p;
  wf_nb : 0 <= pnbits p <= 63;
  wf_bits : 0 <= pbits p < 2 ^ pnbits p;
  wf_fin : k <> JPEG -> pfin p = false;
  wf_jpeg : k = JPEG -> jpeg_ok (pbuf p)
}.

Record Repr (k : pkind) (p : pump) (bs : list bool) : Prop := {
  r_wf : wf k p;
  r_agree : forall i, (i < length bs)%nat -> nth i bs false = nth i (pending k p) false;
  r_len : k <> JPEG -> (length bs <= length (pending k p))%nat
}.

Lemma cache_length : forall k p, length (cache k p) = Z.to_nat (pnbits p).
Proof. intros [] p; cbn; [apply zlsb_length|apply zbits_length..]. Qed.

Lemma little_endian_rev : forall l, little_endian_value l = big_endian_value (rev l).
Proof.
  assert (H : forall l b, big_endian_value (l ++ [b]) = 256 * big_endian_value l + b).
  { induction l as [|x l IH]; intros b; cbn [app big_endian_value length];
      [change (256 ^ Z.of_nat 0) with 1; lia|].
    rewrite IH, app_length. cbn [length]. rewrite Nat2Z.inj_add, Z.pow_add_r by lia.
    change (256 ^ Z.of_nat 1) with 256. lia. }
  induction l as [|x l IH]; cbn [rev little_endian_value]; [reflexivity|].
  rewrite H, IH. lia.
Qed.

Lemma swap_groups_fuel : forall k l f1 f2, (0 < k)%nat -> (length l <= f1)%nat -> (length l <= f2)%nat ->
  swap_groups f1 k l = swap_groups f2 k l.
Proof.
  intros k l f1. revert l. induction f1; intros l f2 Hk H1 H2.
  - destruct l; [|cbn in H1; lia]. destruct f2; cbn; [reflexivity|].
    destruct k; [lia|]. reflexivity.
  - destruct f2.
    + destruct l; [|cbn in H2; lia]. cbn. destruct k; [lia|]. reflexivity.
    + cbn [swap_groups]. destruct (Nat.ltb (length l) k) eqn:E; [reflexivity|].
      f_equal. apply IHf1; [assumption|rewrite skipn_length..]; lia.
Qed.
Lemma swapped_step : forall k l, (0 < k)%nat -> (k <= length l)%nat ->
  swapped k l = rev (firstn k l) ++ swapped k (skipn k l).
Proof.
  intros k l Hk H. unfold swapped. destruct l as [|x l]; [cbn in H; lia|].
  cbn [length swap_groups]. destruct (Nat.ltb (S (length l)) k) eqn:E.
  - cbn [length] in H. lia.
  - f_equal. apply swap_groups_fuel; [assumption|rewrite skipn_length; cbn [length]; lia|lia].
Qed.
Lemma swapped_short : forall k l, (length l < k)%nat -> swapped k l = [].
Proof.
  intros k l H. unfold swapped. destruct l; [reflexivity|]. cbn [length swap_groups].
  cbn [length] in H. replace (Nat.ltb (S (length l)) k) with true by lia. reflexivity.
Qed.
Lemma whole_words_step : forall l, (4 <= length l)%nat ->
  whole_words l = firstn 4 l ++ whole_words (skipn 4 l).
Proof.
  intros l H. unfold whole_words. rewrite skipn_length.
  replace (4 * (length l / 4))%nat with (4 + 4 * ((length l - 4) / 4))%nat by lia.
  generalize ((length l - 4) / 4)%nat as q. intros q.
  rewrite <- (firstn_skipn 4 l) at 1. rewrite firstn_app, firstn_length_le by lia.
  rewrite firstn_all2 by (rewrite firstn_length_le by lia; lia). do 2 f_equal. lia.
Qed.
Lemma whole_words_short : forall l, (length l < 4)%nat -> whole_words l = [].
Proof. intros. unfold whole_words. rewrite Nat.div_small by lia. reflexivity. Qed.

(** Word pumps: how the source splits. *)
Lemma source_empty : forall k l, k <> JPEG -> (length l < 4)%nat -> source k l = [].
Proof.
  intros [] l Hk H; cbn [source]; try (rewrite whole_words_short by assumption; reflexivity); [|congruence].
  rewrite swapped_short by assumption. reflexivity.
Qed.
Definition inword (k : pkind) (l : list Z) : Z :=
  match k with MSB | JPEG => big_endian_value (firstn 4 l) | _ => little_endian_value (firstn 4 l) end.
Lemma inword_range : forall k l, bytes l -> (4 <= length l)%nat -> 0 <= inword k l < 2 ^ 32.
Proof.
  intros k l Hb H.
  pose proof (big_endian_value_range (firstn 4 l) (Forall_firstn _ _ _ Hb)) as H1.
  pose proof (little_endian_value_range (firstn 4 l) (Forall_firstn _ _ _ Hb)) as H2.
  rewrite firstn_length_le in * by lia. change (256 ^ Z.of_nat 4) with (2 ^ 32) in *.
  destruct k; assumption.
Qed.
Lemma source_step : forall k l, k <> JPEG -> bytes l -> (4 <= length l)%nat ->
  source k l = (match k with LSB => zlsb 32 | _ => zbits 32 end) (inword k l) ++ source k (skipn 4 l).
Proof.
  intros k l Hk Hb H.
  pose proof (Forall_firstn _ 4 _ Hb) as Hf.
  destruct k; cbn [source inword]; [| | |congruence].
  - rewrite whole_words_step, bits_of_lsb_app, bits_of_lsb_zlsb by assumption.
    rewrite firstn_length_le by lia. reflexivity.
  - rewrite whole_words_step, bits_of_app, bits_of_zbits by assumption.
    rewrite firstn_length_le by lia. reflexivity.
  - rewrite swapped_step, bits_of_app by (try assumption; lia).
    rewrite bits_of_zbits by (apply Forall_rev; assumption).
    rewrite rev_length, firstn_length_le, <- little_endian_rev by lia. reflexivity.
Qed.

Section WithMode.
Context {M : Mode}.

Lemma rest_bytes : forall k p, wf k p -> bytes (rest p).
Proof. intros k p W. apply Forall_skipn. apply W. Qed.
Lemma rest_length : forall p, zlen (rest p) = Z.max 0 (zlen (pbuf p) - Z.max 0 (ppos p)).
Proof. intros. unfold rest. rewrite zlen_skipn. lia. Qed.
Lemma sub_list_rest : forall p n, sub_list (pbuf p) (ppos p) n = firstn n (rest p).
Proof. reflexivity. Qed.

(** Pushing a 32-bit word in the cache of a most-significant-first pump. *)
Lemma msb_push32_ok : forall p w, 0 <= pnbits p <= 31 -> 0 <= pbits p < 2 ^ pnbits p -> 0 <= w < 2 ^ 32 ->
  msb_push32 p w = Ok (mkpump (pbuf p) (ppos p + 4) (pbits p * 2 ^ 32 + w) (pnbits p + 32) (pfin p)).
Proof.
  intros p w Hn Hb Hw. unfold msb_push32.
  assert (2 ^ pnbits p <= 2 ^ 31) by (apply Z.pow_le_mono_r; lia).
  rewrite shl_u_ok by p2lia. cbn [bind].
  unfold u32add. rewrite arith_u_ok by p2lia. cbn [bind].
  rewrite lor_mul_add by p2lia. reflexivity.
Qed.

Lemma push_range : forall b n w m, 0 <= n -> 0 <= m -> 0 <= b < 2 ^ n -> 0 <= w < 2 ^ m ->
  0 <= b * 2 ^ m + w < 2 ^ (n + m).
Proof. intros. rewrite Z.pow_add_r by lia. nia. Qed.

Lemma msb_top_ok : forall p (n : nat), (n <= 32)%nat -> Z.of_nat n <= pnbits p <= 63 ->
  0 <= pbits p < 2 ^ pnbits p ->
  msb_top p (Z.of_nat n) = Ok (number (firstn n (zbits (Z.to_nat (pnbits p)) (pbits p)))).
Proof.
  intros p n Hn Hnb Hb. unfold msb_top, u32sub.
  rewrite arith_u_ok by p2lia. cbn [bind]. rewrite shr_u_ok by lia. cbn [bind].
  replace (Z.to_nat (pnbits p)) with (n + (Z.to_nat (pnbits p) - n))%nat by lia.
  rewrite firstn_zbits, number_zbits.
  replace (Z.of_nat (Z.to_nat (pnbits p) - n)) with (pnbits p - Z.of_nat n) by lia.
  set (d := pnbits p - Z.of_nat n).
  assert (R : 0 <= pbits p / 2 ^ d < 2 ^ Z.of_nat n).
  { pose proof (pow2_pos d ltac:(lia)).
    split; [apply Z.div_pos; lia|]. apply Z.div_lt_upper_bound; [lia|].
    rewrite <- Z.pow_add_r by lia. replace (d + Z.of_nat n) with (pnbits p) by lia. lia. }
  unfold as_u32. assert (2 ^ Z.of_nat n <= 2 ^ 32) by (apply Z.pow_le_mono_r; lia).
  rewrite !Z.mod_small by lia. reflexivity.
Qed.

(** Agreement transported along a refill. *)
Lemma Repr_pending : forall k p p' bs, Repr k p bs -> wf k p' ->
  (forall i, nth i (pending k p') false = nth i (pending k p) false) ->
  (k <> JPEG -> length (pending k p') = length (pending k p)) ->
  Repr k p' bs.
Proof.
  intros k p p' bs [W A L] W' E EL. constructor; auto.
  - intros i Hi. rewrite A, E by assumption. reflexivity.
  - intros Hk. rewrite EL by assumption. auto.
Qed.

Lemma firstn_agree : forall (a b c : list bool) n, (n <= length a)%nat -> (n <= length b)%nat ->
  (forall i, (i < length a)%nat -> nth i a false = nth i (b ++ c) false) ->
  firstn n a = firstn n b.
Proof.
  intros a b c n Ha Hb H. apply nth_ext with (d := false) (d' := false).
  - rewrite !firstn_length_le by lia. reflexivity.
  - intros i Hi. rewrite firstn_length_le in Hi by lia.
    rewrite !nth_firstn' by lia. rewrite H by lia. rewrite app_nth1 by lia. reflexivity.
Qed.

Lemma Repr_firstn : forall k p bs n, Repr k p bs -> (n <= length bs)%nat -> Z.of_nat n <= pnbits p ->
  firstn n bs = firstn n (cache k p).
Proof.
  intros k p bs n R H1 H2. eapply firstn_agree; [assumption| |apply R].
  rewrite cache_length. lia.
Qed.

(** Consuming cached bits. *)
Lemma consume_ok : forall k p bs (n : nat), Repr k p bs -> Z.of_nat n <= pnbits p ->
  exists p', consume_bits k p (Z.of_nat n) = Ok p' /\ Repr k p' (skipn n bs) /\ pnbits p' = pnbits p - Z.of_nat n.
Proof.
  intros k p bs n R Hn. pose proof (r_wf _ _ _ R) as W.
  pose proof (wf_nb _ _ W) as Wn. pose proof (wf_bits _ _ W) as Wb.
  set (nb' := pnbits p - Z.of_nat n).
  assert (Hsplit : Z.to_nat (pnbits p) = (n + Z.to_nat nb')%nat) by (unfold nb'; lia).
  pose proof (pow2_pos nb' ltac:(lia)) as Hp.
  assert (G : forall p', pbuf p' = pbuf p -> ppos p' = ppos p -> pfin p' = pfin p -> pnbits p' = nb' ->
    0 <= pbits p' < 2 ^ nb' -> cache k p' = skipn n (cache k p) ->
    Repr k p' (skipn n bs)).
  { intros p' E1 E2 E3 E4 E5 E6.
    assert (EP : pending k p' = skipn n (pending k p)).
    { unfold pending, rest. rewrite E1, E2, E3, E6, skipn_app.
      rewrite cache_length. replace (n - Z.to_nat (pnbits p))%nat with O by lia. reflexivity. }
    constructor.
    - destruct W. constructor; rewrite ?E1, ?E2, ?E3, ?E4; auto; lia.
    - intros i Hi. rewrite EP, !nth_skipn'. apply R. rewrite skipn_length in Hi. lia.
    - intros Hk. rewrite EP, !skipn_length. pose proof (r_len _ _ _ R Hk). lia. }
  destruct k; cbn [consume_bits].
  - unfold lsb_consume, u32sub. rewrite arith_u_ok by (fold nb'; p2lia). cbn [bind].
    rewrite shr_u_ok by lia. cbn [bind]. eexists; split; [reflexivity|]. split; [|reflexivity].
    apply G; try reflexivity.
    + cbn [pbits]. pose proof (pow2_pos (Z.of_nat n) ltac:(lia)). split; [apply Z.div_pos; lia|].
      apply Z.div_lt_upper_bound; [lia|]. rewrite <- Z.pow_add_r by lia.
      replace (Z.of_nat n + nb') with (pnbits p) by lia. lia.
    + cbn [cache pnbits pbits]. rewrite Hsplit, skipn_zlsb. reflexivity.
  - unfold msb_consume, u32sub. rewrite arith_u_ok by (fold nb'; p2lia). cbn [bind]. fold nb'.
    assert (2 ^ nb' <= 2 ^ 63) by (apply Z.pow_le_mono_r; lia).
    rewrite shl_u_ok by p2lia. cbn [bind]. rewrite arith_u_ok by p2lia. cbn [bind].
    rewrite Z.mul_1_l, land_ones_mod by lia.
    eexists; split; [reflexivity|]. split; [|reflexivity]. apply G; try reflexivity.
    + cbn [pbits]. apply Z.mod_pos_bound. lia.
    + cbn [cache pnbits pbits]. rewrite Hsplit, skipn_zbits.
      replace nb' with (Z.of_nat (Z.to_nat nb')) at 2 by lia. apply zbits_mod.
  - unfold msb_consume, u32sub. rewrite arith_u_ok by (fold nb'; p2lia). cbn [bind]. fold nb'.
    assert (2 ^ nb' <= 2 ^ 63) by (apply Z.pow_le_mono_r; lia).
    rewrite shl_u_ok by p2lia. cbn [bind]. rewrite arith_u_ok by p2lia. cbn [bind].
    rewrite Z.mul_1_l, land_ones_mod by lia.
    eexists; split; [reflexivity|]. split; [|reflexivity]. apply G; try reflexivity.
    + cbn [pbits]. apply Z.mod_pos_bound. lia.
    + cbn [cache pnbits pbits]. rewrite Hsplit, skipn_zbits.
      replace nb' with (Z.of_nat (Z.to_nat nb')) at 2 by lia. apply zbits_mod.
  - unfold msb_consume, u32sub. rewrite arith_u_ok by (fold nb'; p2lia). cbn [bind]. fold nb'.
    assert (2 ^ nb' <= 2 ^ 63) by (apply Z.pow_le_mono_r; lia).
    rewrite shl_u_ok by p2lia. cbn [bind]. rewrite arith_u_ok by p2lia. cbn [bind].
    rewrite Z.mul_1_l, land_ones_mod by lia.
    eexists; split; [reflexivity|]. split; [|reflexivity]. apply G; try reflexivity.
    + cbn [pbits]. apply Z.mod_pos_bound. lia.
    + cbn [cache pnbits pbits]. rewrite Hsplit, skipn_zbits.
      replace nb' with (Z.of_nat (Z.to_nat nb')) at 2 by lia. apply zbits_mod.
Qed.

(** Peeking, word pumps. *)
Lemma words_left : forall k p bs (n : nat), k <> JPEG -> Repr k p bs -> (n <= length bs)%nat ->
  pnbits p < Z.of_nat n -> 4 <= zlen (rest p).
Proof.
  intros k p bs n Hk R Hn Hnb. pose proof (r_len _ _ _ R Hk) as L.
  unfold pending in L. rewrite (wf_fin _ _ (r_wf _ _ _ R) Hk), app_length, cache_length in L.
  destruct (Z_lt_ge_dec (zlen (rest p)) 4); [|lia].
  pose proof (wf_nb _ _ (r_wf _ _ _ R)).
  rewrite source_empty in L by (try assumption; unfold zlen in *; lia). cbn in L. lia.
Qed.

Lemma msb_peek_ok : forall k p bs (n : nat), (k = MSB \/ k = MSB32) -> Repr k p bs ->
  (n <= 32)%nat -> (n <= length bs)%nat ->
  exists p', peek_bits k p (Z.of_nat n) = Ok (number (firstn n bs), p') /\ Repr k p' bs /\ Z.of_nat n <= pnbits p'.
Proof.
  intros k p bs n Hk R Hn Hl.
  assert (Hkj : k <> JPEG) by (destruct Hk; subst; discriminate).
  assert (Hkl : k <> LSB) by (destruct Hk; subst; discriminate).
  pose proof (r_wf _ _ _ R) as W. pose proof (wf_nb _ _ W) as Wn. pose proof (wf_bits _ _ W) as Wb.
  pose proof (wf_bytes _ _ W) as WB. pose proof (wf_pos _ _ W) as Wp.
  assert (Step : exists p1,
    (if pnbits p <? Z.of_nat n then
       inbits <- (match k with MSB => BEu32 | _ => LEu32 end) (pbuf p) (ppos p) ;; msb_push32 p inbits
     else Ok p) = Ok p1 /\ Repr k p1 bs /\ Z.of_nat n <= pnbits p1).
  { destruct (pnbits p <? Z.of_nat n) eqn:E; [|exists p; split; [reflexivity|split; [assumption|lia]]].
    pose proof (words_left _ _ _ _ Hkj R Hl ltac:(lia)) as Hw.
    assert (Hin : (match k with MSB => BEu32 | _ => LEu32 end) (pbuf p) (ppos p) = Ok (inword k (rest p))).
    { rewrite rest_length in Hw. destruct Hk; subst k; [rewrite BEu32_spec by (try assumption; lia)|
        rewrite LEu32_spec by (try assumption; lia)]; rewrite sub_list_rest; reflexivity. }
    assert (Hr : 0 <= inword k (rest p) < 2 ^ 32).
    { apply inword_range; [eapply rest_bytes; eassumption|unfold zlen in Hw; lia]. }
    rewrite Hin. cbn [bind]. rewrite msb_push32_ok by (try assumption; lia).
    eexists; split; [reflexivity|]. split; [|cbn [pnbits]; lia].
    assert (W1 : wf k (mkpump (pbuf p) (ppos p + 4) (pbits p * 2 ^ 32 + inword k (rest p)) (pnbits p + 32) (pfin p))).
    { destruct W. constructor; cbn [pbuf ppos pbits pnbits pfin]; auto; try lia.
      apply push_range; lia. }
    assert (EP : pending k (mkpump (pbuf p) (ppos p + 4) (pbits p * 2 ^ 32 + inword k (rest p)) (pnbits p + 32) (pfin p))
                 = pending k p).
    { unfold pending. cbn [pfin]. rewrite (wf_fin _ _ W Hkj).
      rewrite (source_step k (rest p)) by (first [assumption | eapply rest_bytes; eassumption | unfold zlen in *; lia]).
      rewrite app_assoc. f_equal.
      - destruct Hk; subst k; cbn [cache pnbits pbits];
        rewrite zbits_concat by (change (Z.of_nat 32) with 32; assumption);
        change (Z.of_nat 32) with 32; f_equal; lia.
      - f_equal. unfold rest. cbn [ppos pbuf]. rewrite skipn_skipn'. f_equal. lia. }
    eapply Repr_pending; [exact R|exact W1| |]; intros; rewrite EP; reflexivity. }
  destruct Step as [p1 [E1 [R1 Hn1]]].
  pose proof (r_wf _ _ _ R1) as W1.
  exists p1. split; [|split; assumption].
  assert (ET : msb_top p1 (Z.of_nat n) = Ok (number (firstn n bs))).
  { pose proof (wf_nb _ _ W1). pose proof (wf_bits _ _ W1). rewrite msb_top_ok by lia.
    rewrite (Repr_firstn _ _ _ _ R1 Hl Hn1). destruct Hk; subst k; reflexivity. }
  destruct Hk; subst k; cbn [peek_bits]; [unfold msb_peek|unfold msb32_peek];
    rewrite E1; cbn [bind]; rewrite ET; reflexivity.
Qed.

Lemma lsb_peek_ok : forall p bs (n : nat), Repr LSB p bs ->
  (n <= 32)%nat -> (n <= length bs)%nat ->
  exists p', peek_bits LSB p (Z.of_nat n) = Ok (number_lsb (firstn n bs), p') /\ Repr LSB p' bs /\ Z.of_nat n <= pnbits p'.
Proof.
  intros p bs n R Hn Hl.
  assert (Hkj : LSB <> JPEG) by discriminate.
  pose proof (r_wf _ _ _ R) as W. pose proof (wf_nb _ _ W) as Wn. pose proof (wf_bits _ _ W) as Wb.
  pose proof (wf_bytes _ _ W) as WB. pose proof (wf_pos _ _ W) as Wp.
  cbn [peek_bits]. unfold lsb_peek.
  match goal with |- context [bind (if pnbits p <? Z.of_nat n then ?X else Ok p)] =>
    assert (Step : exists p1, (if pnbits p <? Z.of_nat n then X else Ok p) = Ok p1 /\
      Repr LSB p1 bs /\ Z.of_nat n <= pnbits p1) end.
  { destruct (pnbits p <? Z.of_nat n) eqn:E; [|exists p; split; [reflexivity|split; [assumption|lia]]].
    pose proof (words_left _ _ _ _ Hkj R Hl ltac:(lia)) as Hw.
    assert (Hr : 0 <= inword LSB (rest p) < 2 ^ 32).
    { apply inword_range; [eapply rest_bytes; eassumption|unfold zlen in Hw; lia]. }
    pose proof Hw as Hw'. rewrite rest_length in Hw.
    rewrite LEu32_spec by (try assumption; lia). rewrite sub_list_rest.
    change (little_endian_value (firstn 4 (rest p))) with (inword LSB (rest p)).
    set (w := inword LSB (rest p)) in *. cbn [bind].
    unfold u32sub. rewrite arith_u_ok by p2lia. cbn [bind].
    assert (2 ^ pnbits p <= 2 ^ 31) by (apply Z.pow_le_mono_r; lia).
    rewrite shl_u_ok by p2lia. cbn [bind].
    set (s := 32 - pnbits p).
    assert (Hlo : 0 <= pbits p * 2 ^ s < 2 ^ 32).
    { pose proof (pow2_pos s ltac:(lia)). split; [nia|].
      replace 32 with (pnbits p + s) by lia. rewrite Z.pow_add_r by lia. nia. }
    rewrite shl_u_ok by p2lia. cbn [bind].
    rewrite lor_mul_add by lia. rewrite shr_u_ok by lia. cbn [bind].
    unfold u32add. rewrite arith_u_ok by p2lia. cbn [bind].
    assert (EB : (w * 2 ^ 32 + pbits p * 2 ^ s) / 2 ^ s = pbits p + w * 2 ^ pnbits p).
    { pose proof (pow2_pos s ltac:(lia)).
      replace (w * 2 ^ 32) with (w * 2 ^ pnbits p * 2 ^ s).
      - rewrite <- Z.mul_add_distr_r, Z.div_mul by lia. lia.
      - replace 32 with (pnbits p + s) by lia. rewrite (Z.pow_add_r 2 (pnbits p) s) by lia. lia. }
    rewrite EB. eexists; split; [reflexivity|]. split; [|cbn [pnbits]; lia].
    match goal with |- Repr _ ?q _ => set (p1 := q) end.
    assert (W1 : wf LSB p1).
    { destruct W. constructor; unfold p1; cbn [pbuf ppos pbits pnbits pfin]; auto; try lia.
      replace (pbits p + w * 2 ^ pnbits p) with (w * 2 ^ pnbits p + pbits p) by lia.
      rewrite Z.add_comm with (n := pnbits p). apply push_range; lia. }
    assert (EP : pending LSB p1 = pending LSB p).
    { unfold pending, p1. cbn [pfin]. rewrite (wf_fin _ _ W Hkj).
      rewrite (source_step LSB (rest p)) by (first [assumption | eapply rest_bytes; eassumption | unfold zlen in *; lia]).
      rewrite app_assoc. f_equal.
      - cbn [cache pnbits pbits].
        rewrite zlsb_concat by (rewrite Z2Nat.id by lia; assumption).
        rewrite Z2Nat.id by lia. fold w. f_equal; lia.
      - f_equal. unfold rest. cbn [ppos pbuf]. rewrite skipn_skipn'. f_equal. lia. }
    eapply Repr_pending; [exact R|exact W1| |]; intros; rewrite EP; reflexivity. }
  destruct Step as [p1 [E1 [R1 Hn1]]].
  pose proof (r_wf _ _ _ R1) as W1.
  rewrite E1; cbn [bind]. unfold u32sub. rewrite arith_u_ok by p2lia. cbn [bind].
  rewrite shr_u_ok by lia. cbn [bind].
  exists p1. split; [|split; assumption].
  rewrite (Repr_firstn _ _ _ _ R1 Hl Hn1). cbn [cache].
  pose proof (wf_nb _ _ W1). pose proof (wf_bits _ _ W1).
  replace (Z.to_nat (pnbits p1)) with (n + (Z.to_nat (pnbits p1) - n))%nat by lia.
  rewrite firstn_zlsb, number_lsb_zlsb.
  assert (EM : 4294967295 / 2 ^ (32 - Z.of_nat n) = 2 ^ Z.of_nat n - 1).
  { change 4294967295 with (2 ^ 32 - 1). pose proof (pow2_pos (32 - Z.of_nat n) ltac:(lia)).
    replace (2 ^ 32) with (2 ^ Z.of_nat n * 2 ^ (32 - Z.of_nat n)) by (rewrite <- Z.pow_add_r by lia; f_equal; lia).
    symmetry. apply Z.div_unique with (r := 2 ^ (32 - Z.of_nat n) - 1); lia. }
  rewrite EM, land_ones_mod by lia. unfold as_u32.
  pose proof (pow2_pos_nat n). pose proof (Z.mod_pos_bound (pbits p1) (2 ^ Z.of_nat n) ltac:(lia)).
  assert (2 ^ Z.of_nat n <= 2 ^ 32) by (apply Z.pow_le_mono_r; lia).
  rewrite (Z.mod_small _ (2 ^ 32)) by lia. reflexivity.
Qed.

(** JPEG pump. *)
Lemma nth_app_false : forall (a : list bool) n i, nth i (a ++ repeat false n) false = nth i a false.
Proof.
  intros a n i. destruct (Nat.lt_ge_cases i (length a)).
  - apply app_nth1; assumption.
  - rewrite app_nth2 by assumption. rewrite (nth_overflow a) by assumption.
    destruct (Nat.lt_ge_cases (i - length a) n).
    + apply (repeat_spec n false). apply nth_In. rewrite repeat_length; assumption.
    + apply nth_overflow. rewrite repeat_length; assumption.
Qed.

Lemma skipn_cons_nth : forall (l : list Z) n, (n < length l)%nat ->
  skipn n l = nth n l 0 :: skipn (S n) l.
Proof.
  induction l as [|x l IH]; intros [|n] H; cbn in H; try lia; [reflexivity|].
  cbn [skipn nth]. rewrite IH by lia. reflexivity.
Qed.
Lemma rest_cons : forall p, 0 <= ppos p < zlen (pbuf p) ->
  rest p = znth (pbuf p) (ppos p) :: skipn (Z.to_nat (ppos p + 1)) (pbuf p).
Proof.
  intros p H. unfold rest, znth, zlen in *.
  replace (Z.to_nat (ppos p + 1)) with (S (Z.to_nat (ppos p))) by lia.
  apply skipn_cons_nth. lia.
Qed.

Lemma last_znth : forall l, 0 < zlen l -> last l 0 = znth l (zlen l - 1).
Proof.
  intros l H. unfold znth, zlen in *. destruct l as [|x l]; [cbn in H; lia|]. clear H.
  replace (Z.to_nat (Z.of_nat (length (x :: l)) - 1)) with (length l) by (cbn [length]; lia).
  revert x. induction l as [|y l IH]; intros x; [reflexivity|].
  change (last (x :: y :: l) 0) with (last (y :: l) 0). rewrite IH. reflexivity.
Qed.

(** One step of the slow refill. *)
Lemma jpeg_slow_ok : forall todo p bs, Repr JPEG p bs -> pnbits p + 8 * Z.of_nat todo <= 63 ->
  pfin p = false ->
  exists p', jpeg_slow todo p = Ok p' /\ Repr JPEG p' bs /\
    pnbits p' <= pnbits p + 8 * Z.of_nat todo /\
    (pfin p' = true \/ (pnbits p' = pnbits p + 8 * Z.of_nat todo)).
Proof.
  induction todo; intros p bs R Hnb Hf.
  - exists p. cbn. split; [reflexivity|]. split; [assumption|]. lia.
  - cbn [jpeg_slow]. rewrite Hf.
    pose proof (r_wf _ _ _ R) as W. pose proof (wf_nb _ _ W) as Wn. pose proof (wf_bits _ _ W) as Wb.
    pose proof (wf_bytes _ _ W) as WB. pose proof (wf_pos _ _ W) as Wp.
    pose proof (wf_jpeg _ _ W eq_refl) as [Wl Wlast].
    assert (H56 : 2 ^ pnbits p <= 2 ^ 55) by (apply Z.pow_le_mono_r; lia).
    (* general continuation *)
    assert (G : forall (byte skip : Z) (fin : bool),
      0 <= byte < 256 -> 0 <= skip ->
      (forall i, nth i (zbits 8 byte ++ (if fin then [] else bits_of (unstuff (skipn (Z.to_nat (ppos p + skip + 1)) (pbuf p))))) false
                 = nth i (bits_of (unstuff (rest p))) false) ->
      exists p',
        bind (shl_u 64 (pbits p) 8) (fun hi => bind (u32add (pnbits p) 8) (fun nb =>
          jpeg_slow todo (mkpump (pbuf p) (ppos p + skip + 1) (Z.lor hi byte) nb fin))) = Ok p' /\
        Repr JPEG p' bs /\ pnbits p' <= pnbits p + 8 * Z.of_nat (S todo) /\
        (pfin p' = true \/ pnbits p' = pnbits p + 8 * Z.of_nat (S todo))).
    { intros byte skip fin Hbyte Hskip Hag.
      rewrite shl_u_ok by p2lia. cbn [bind]. unfold u32add. rewrite arith_u_ok by p2lia. cbn [bind].
      rewrite lor_mul_add by p2lia.
      set (p1 := mkpump (pbuf p) (ppos p + skip + 1) (pbits p * 2 ^ 8 + byte) (pnbits p + 8) fin).
      assert (W1 : wf JPEG p1).
      { destruct W. constructor; unfold p1; cbn [pbuf ppos pbits pnbits pfin]; auto; try lia; [|congruence].
        apply push_range; p2lia. }
      assert (R1 : Repr JPEG p1 bs).
      { apply (Repr_pending JPEG p); [assumption..| |congruence].
        intros i. unfold pending, p1. cbn [cache pnbits pbits pfin]. rewrite Hf.
        replace (Z.to_nat (pnbits p + 8)) with (Z.to_nat (pnbits p) + 8)%nat by lia.
        change (2 ^ 8) with (2 ^ Z.of_nat 8). rewrite <- zbits_concat by (change (2 ^ Z.of_nat 8) with 256; lia).
        rewrite <- app_assoc. unfold rest. cbn [pbuf ppos source].
        destruct (Nat.lt_ge_cases i (length (zbits (Z.to_nat (pnbits p)) (pbits p)))) as [Hi|Hi].
        - rewrite !app_nth1 by assumption. reflexivity.
        - rewrite !(app_nth2 (zbits (Z.to_nat (pnbits p)) (pbits p))) by assumption. apply Hag. }
      destruct fin.
      - exists p1. split; [destruct todo; reflexivity|]. split; [assumption|].
        unfold p1; cbn [pnbits pfin]. split; [lia|auto].
      - destruct (IHtodo p1 bs R1) as [p' [E' [R' [HN' HF']]]]; [unfold p1; cbn [pnbits]; lia|reflexivity|].
        exists p'. split; [exact E'|]. split; [assumption|]. unfold p1 in HN', HF'; cbn [pnbits] in HN', HF'.
        split; [lia|]. destruct HF'; [auto|right; lia]. }
    destruct (zlen (pbuf p) <=? ppos p) eqn:Eend.
    + cbn [bind]. apply (G 0 0 true); try lia. intros i.
      replace (rest p) with (@nil Z) by (unfold rest; rewrite skipn_all2; [reflexivity|unfold zlen in *; lia]).
      rewrite app_nil_r. change (bits_of (unstuff [])) with (@nil bool). rewrite zbits_0.
      change (repeat false 8) with ([] ++ repeat false 8). apply nth_app_false.
    + rewrite get_ok by lia. cbn [bind].
      pose proof (znth_Forall byte _ (ppos p) WB ltac:(lia)) as Hb0. unfold byte in Hb0.
      destruct (znth (pbuf p) (ppos p) =? 255) eqn:E255; cbn [negb].
      * assert (Hne : ppos p <> zlen (pbuf p) - 1).
        { intros E. apply Wlast. rewrite last_znth by lia. rewrite <- E. lia. }
        rewrite get_ok by lia. cbn [bind].
        destruct (znth (pbuf p) (ppos p + 1) =? 0) eqn:E0.
        -- cbn [bind]. apply (G (znth (pbuf p) (ppos p)) 1 false); try lia.
           intros i. rewrite rest_cons by lia.
           replace (skipn (Z.to_nat (ppos p + 1)) (pbuf p)) with
             (znth (pbuf p) (ppos p + 1) :: skipn (Z.to_nat (ppos p + 1 + 1)) (pbuf p)).
           2:{ unfold znth. replace (Z.to_nat (ppos p + 1 + 1)) with (S (Z.to_nat (ppos p + 1))) by lia.
               rewrite <- skipn_cons_nth by (unfold zlen in *; lia). reflexivity. }
           cbn [unstuff]. rewrite E255, E0. f_equal.
           replace (znth (pbuf p) (ppos p)) with 255 by lia. reflexivity.
        -- cbn [bind]. apply (G 0 0 true); try lia.
           intros i. rewrite rest_cons by lia.
           replace (skipn (Z.to_nat (ppos p + 1)) (pbuf p)) with
             (znth (pbuf p) (ppos p + 1) :: skipn (Z.to_nat (ppos p + 1 + 1)) (pbuf p)).
           2:{ unfold znth. replace (Z.to_nat (ppos p + 1 + 1)) with (S (Z.to_nat (ppos p + 1))) by lia.
               rewrite <- skipn_cons_nth by (unfold zlen in *; lia). reflexivity. }
           cbn [unstuff]. rewrite E255, E0.
           rewrite app_nil_r. change (bits_of []) with (@nil bool). rewrite zbits_0.
           change (repeat false 8) with ([] ++ repeat false 8). apply nth_app_false.
      * cbn [bind]. apply (G (znth (pbuf p) (ppos p)) 0 false); try lia.
        intros i. rewrite rest_cons by lia. cbn [unstuff]. rewrite E255.
        replace (ppos p + 0 + 1) with (ppos p + 1) by lia. reflexivity.
Qed.

Lemma unstuff_plain4 : forall a b c d l, a <> 255 -> b <> 255 -> c <> 255 -> d <> 255 ->
  unstuff (a :: b :: c :: d :: l) = [a; b; c; d] ++ unstuff l.
Proof.
  intros. cbn [unstuff app].
  replace (a =? 255) with false by lia. replace (b =? 255) with false by lia.
  replace (c =? 255) with false by lia. replace (d =? 255) with false by lia. reflexivity.
Qed.

Lemma jpeg_fast_ok : forall p, wf JPEG p ->
  exists f, jpeg_fast p = Ok f /\
    (f = true -> ppos p + 4 < zlen (pbuf p) /\
       znth (pbuf p) (ppos p) <> 255 /\ znth (pbuf p) (ppos p + 1) <> 255 /\
       znth (pbuf p) (ppos p + 2) <> 255 /\ znth (pbuf p) (ppos p + 3) <> 255).
Proof.
  intros p W. pose proof (wf_jpeg _ _ W eq_refl) as [Wl _]. pose proof (wf_pos _ _ W) as Wp.
  unfold jpeg_fast. rewrite usub_ok by lia. cbn [bind].
  destruct (ppos p <? zlen (pbuf p) - 4) eqn:E; cbn [negb]; [|exists false; split; [reflexivity|discriminate]].
  replace (ppos p + 0) with (ppos p) by lia.
  rewrite get_ok by lia. cbn [bind]. destruct (znth (pbuf p) (ppos p) =? 255) eqn:E0; [exists false; split; [reflexivity|discriminate]|].
  rewrite get_ok by lia. cbn [bind]. destruct (znth (pbuf p) (ppos p + 1) =? 255) eqn:E1; [exists false; split; [reflexivity|discriminate]|].
  rewrite get_ok by lia. cbn [bind]. destruct (znth (pbuf p) (ppos p + 2) =? 255) eqn:E2; [exists false; split; [reflexivity|discriminate]|].
  rewrite get_ok by lia. cbn [bind]. eexists; split; [reflexivity|].
  intros H. repeat split; lia.
Qed.

Lemma jpeg_peek_ok : forall p bs (n : nat), Repr JPEG p bs ->
  (n <= 32)%nat -> (n <= length bs)%nat ->
  exists p', peek_bits JPEG p (Z.of_nat n) = Ok (number (firstn n bs), p') /\ Repr JPEG p' bs /\ Z.of_nat n <= pnbits p'.
Proof.
  intros p bs n R Hn Hl. cbn [peek_bits]. unfold jpeg_peek.
  pose proof (r_wf _ _ _ R) as W. pose proof (wf_nb _ _ W) as Wn. pose proof (wf_bits _ _ W) as Wb.
  pose proof (wf_bytes _ _ W) as WB. pose proof (wf_pos _ _ W) as Wp.
  pose proof (wf_jpeg _ _ W eq_refl) as [Wl Wlast].
  match goal with |- context [bind (if ?c then ?X else Ok p)] =>
    assert (Step : exists p1, (if c then X else Ok p) = Ok p1 /\
      Repr JPEG p1 bs /\ (Z.of_nat n <= pnbits p1 \/ (pfin p1 = true))) end.
  { destruct ((pnbits p <? Z.of_nat n) && negb (pfin p)) eqn:E.
    2:{ exists p. split; [reflexivity|]. split; [assumption|]. destruct (pfin p); [auto|left; lia]. }
    apply andb_true_iff in E. destruct E as [E Ef]. apply negb_true_iff in Ef.
    destruct (jpeg_fast_ok p W) as [f [Hf Hft]]. rewrite Hf. cbn [bind].
    destruct f.
    - destruct (Hft eq_refl) as [Hp [H0 [H1 [H2 H3]]]].
      rewrite BEu32_spec by (try assumption; lia). cbn [bind]. rewrite sub_list_rest.
      assert (L4 : (4 <= length (rest p))%nat) by (pose proof (rest_length p); unfold zlen in *; lia).
      pose proof (inword_range MSB (rest p) (rest_bytes _ _ W) L4) as Hr. cbn [inword] in Hr.
      rewrite msb_push32_ok by (try assumption; lia).
      eexists; split; [reflexivity|]. split; [|left; cbn [pnbits]; lia].
      match goal with |- Repr _ ?q _ => set (p1 := q) end.
      assert (W1 : wf JPEG p1).
      { destruct W. constructor; unfold p1; cbn [pbuf ppos pbits pnbits pfin]; auto; try lia.
        apply push_range; lia. }
      assert (EP : pending JPEG p1 = pending JPEG p).
      { unfold pending, p1. cbn [pfin]. rewrite Ef.
        assert (ER : rest p = [znth (pbuf p) (ppos p); znth (pbuf p) (ppos p + 1); znth (pbuf p) (ppos p + 2); znth (pbuf p) (ppos p + 3)]
                              ++ skipn (Z.to_nat (ppos p + 4)) (pbuf p)).
        { unfold rest, znth.
          replace (Z.to_nat (ppos p + 4)) with (S (S (S (S (Z.to_nat (ppos p)))))) by lia.
          replace (Z.to_nat (ppos p + 3)) with (S (S (S (Z.to_nat (ppos p))))) by lia.
          replace (Z.to_nat (ppos p + 2)) with (S (S (Z.to_nat (ppos p)))) by lia.
          replace (Z.to_nat (ppos p + 1)) with (S (Z.to_nat (ppos p))) by lia.
          unfold zlen in *.
          rewrite (skipn_cons_nth _ (Z.to_nat (ppos p))) by lia.
          rewrite (skipn_cons_nth _ (S (Z.to_nat (ppos p)))) by lia.
          rewrite (skipn_cons_nth _ (S (S (Z.to_nat (ppos p))))) by lia.
          rewrite (skipn_cons_nth _ (S (S (S (Z.to_nat (ppos p)))))) by lia. reflexivity. }
        cbn [source].
        assert (EU : unstuff (rest p) = [znth (pbuf p) (ppos p); znth (pbuf p) (ppos p + 1); znth (pbuf p) (ppos p + 2); znth (pbuf p) (ppos p + 3)]
                              ++ unstuff (skipn (Z.to_nat (ppos p + 4)) (pbuf p))).
        { rewrite ER at 1. apply unstuff_plain4; assumption. }
        rewrite EU.
        rewrite bits_of_app, app_assoc. f_equal.
        - cbn [cache pnbits pbits]. rewrite ER at 1. cbn [app firstn].
          set (q := [znth (pbuf p) (ppos p); znth (pbuf p) (ppos p + 1); znth (pbuf p) (ppos p + 2); znth (pbuf p) (ppos p + 3)]).
          assert (Hq : bytes q).
          { pose proof (rest_bytes _ _ W) as HB. rewrite ER in HB. apply Forall_app in HB. apply HB. }
          rewrite bits_of_zbits by assumption. change (8 * length q)%nat with 32%nat.
          rewrite zbits_concat.
          2:{ pose proof (big_endian_value_range q Hq). change (256 ^ Z.of_nat (length q)) with (2 ^ Z.of_nat 32) in H. assumption. }
          change (Z.of_nat 32) with 32. f_equal; lia. }
      eapply Repr_pending; [exact R|exact W1| |]; intros; rewrite EP; reflexivity.
    - destruct (jpeg_slow_ok 4 p bs R ltac:(lia) Ef) as [p' [E' [R' [HN HF]]]].
      exists p'. split; [exact E'|]. split; [assumption|]. destruct HF; [auto|left; lia]. }
  destruct Step as [p1 [E1 [R1 Hc1]]]. rewrite E1. cbn [bind].
  pose proof (r_wf _ _ _ R1) as W1. pose proof (wf_nb _ _ W1) as Wn1. pose proof (wf_bits _ _ W1) as Wb1.
  match goal with |- context [bind (if ?c then ?X else Ok p1)] =>
    assert (Step : exists p2, (if c then X else Ok p1) = Ok p2 /\
      Repr JPEG p2 bs /\ Z.of_nat n <= pnbits p2) end.
  { destruct ((pnbits p1 <? Z.of_nat n) && pfin p1) eqn:E.
    2:{ exists p1. split; [reflexivity|]. split; [assumption|]. destruct Hc1 as [?|Hc1]; [assumption|]. rewrite Hc1 in E. lia. }
    apply andb_true_iff in E. destruct E as [E Ef].
    assert (H31 : 2 ^ pnbits p1 <= 2 ^ 31) by (apply Z.pow_le_mono_r; lia).
    rewrite shl_u_ok by p2lia. cbn [bind]. unfold u32add. rewrite arith_u_ok by p2lia. cbn [bind].
    eexists; split; [reflexivity|]. split; [|cbn [pnbits]; lia].
    match goal with |- Repr _ ?q _ => set (p2 := q) end.
    assert (W2 : wf JPEG p2).
    { destruct W1. constructor; unfold p2; cbn [pbuf ppos pbits pnbits pfin]; auto; try lia.
      replace (pbits p1 * 2 ^ 32) with (pbits p1 * 2 ^ 32 + 0) by lia. apply push_range; p2lia. }
    apply (Repr_pending JPEG p1); [assumption..| |congruence].
    intros i. unfold pending, p2. cbn [cache pnbits pbits pfin]. rewrite Ef, !app_nil_r.
    replace (Z.to_nat (pnbits p1 + 32)) with (Z.to_nat (pnbits p1) + 32)%nat by lia.
    replace (pbits p1 * 2 ^ 32) with (pbits p1 * 2 ^ Z.of_nat 32 + 0) by (change (Z.of_nat 32) with 32; lia).
    rewrite <- zbits_concat by (change (2 ^ Z.of_nat 32) with (2 ^ 32); p2lia).
    rewrite zbits_0. apply nth_app_false. }
  destruct Step as [p2 [E2 [R2 Hn2]]]. rewrite E2. cbn [bind].
  pose proof (r_wf _ _ _ R2) as W2.
  pose proof (wf_nb _ _ W2). pose proof (wf_bits _ _ W2). rewrite msb_top_ok by lia. cbn [bind].
  exists p2. split; [|split; assumption].
  rewrite (Repr_firstn _ _ _ _ R2 Hl Hn2). reflexivity.
Qed.

(** All pumps. *)
Theorem peek_ok : forall k p bs (n : nat), Repr k p bs -> (n <= 32)%nat -> (n <= length bs)%nat ->
  exists p', peek_bits k p (Z.of_nat n) = Ok (value_of k (firstn n bs), p') /\ Repr k p' bs /\ Z.of_nat n <= pnbits p'.
Proof.
  intros [] p bs n R Hn Hl.
  - apply lsb_peek_ok; assumption.
  - apply msb_peek_ok; auto.
  - apply msb_peek_ok; auto.
  - apply jpeg_peek_ok; assumption.
Qed.

Theorem get_bits_ok : forall k p bs (n : nat), Repr k p bs -> (n <= 32)%nat -> (n <= length bs)%nat ->
  exists p', get_bits k p (Z.of_nat n) = Ok (value_of k (firstn n bs), p') /\ Repr k p' (skipn n bs).
Proof.
  intros k p bs n R Hn Hl. unfold get_bits. destruct (Z.of_nat n =? 0) eqn:E.
  - replace n with O by lia. exists p. split; [destruct k; reflexivity|assumption].
  - destruct (peek_ok k p bs n R Hn Hl) as [p1 [E1 [R1 H1]]]. rewrite E1. cbn [bind].
    destruct (consume_ok k p1 bs n R1 H1) as [p2 [E2 [R2 _]]]. rewrite E2. cbn [bind].
    exists p2. auto.
Qed.

(** Initial states. *)
Lemma Repr_new_word : forall k buf, k <> JPEG -> bytes buf -> Repr k (pump_new buf) (source k buf).
Proof.
  intros k buf Hk Hb.
  assert (E : pending k (pump_new buf) = source k buf).
  { unfold pending, pump_new, rest. cbn [pfin ppos pbuf]. destruct k; reflexivity. }
  constructor.
  - constructor; cbn; auto; try lia; congruence.
  - intros i _. rewrite E. reflexivity.
  - intros _. rewrite E. lia.
Qed.
Lemma Repr_new_jpeg : forall buf n, bytes buf -> jpeg_ok buf ->
  Repr JPEG (pump_new buf) (bits_of (unstuff buf) ++ repeat false n).
Proof.
  intros buf n Hb Hj.
  assert (E : pending JPEG (pump_new buf) = bits_of (unstuff buf)) by reflexivity.
  constructor.
  - constructor; cbn; auto; try lia; congruence.
  - intros i _. rewrite E. apply nth_app_false.
  - congruence.
Qed.

(** Running a list of client requests on the model. *)
Lemma do_request_ok : forall k r p bs, Repr k p bs -> request_ok r -> (needs r <= length bs)%nat ->
  exists p', do_request k p r = Ok (value_of k (firstn (needs r) bs), p') /\ Repr k p' (skipn (drops r) bs).
Proof.
  intros k r p bs R Hr Hn. destruct r as [n|n|n m]; cbn [do_request needs drops request_ok] in *.
  - destruct (peek_ok k p bs n R Hr Hn) as [p' [E [R' _]]]. exists p'. split; [exact E|exact R'].
  - apply get_bits_ok; assumption.
  - destruct Hr as [Hr Hm]. destruct (peek_ok k p bs n R Hr Hn) as [p' [E [R' H']]].
    rewrite E. cbn [bind].
    destruct (consume_ok k p' bs m R' ltac:(lia)) as [p2 [E2 [R2 _]]]. rewrite E2. cbn [bind].
    exists p2. auto.
Qed.
Lemma do_requests_ok : forall k rs p bs, Repr k p bs -> Forall request_ok rs -> enough rs bs ->
  exists p', do_requests k p rs = Ok (answers (value_of k) rs bs, p') /\ Repr k p' (remaining rs bs).
Proof.
  intros k. induction rs as [|r rs IH]; intros p bs R HF HE; [exists p; split; [reflexivity|exact R]|].
  apply Forall_cons_iff in HF. destruct HF as [Hr HF]. destruct HE as [Hn HE].
  cbn [do_requests answers remaining].
  destruct (do_request_ok k r p bs R Hr Hn) as [p' [E R']]. rewrite E. cbn [bind].
  destruct (IH _ _ R' HF HE) as [p2 [E2 R2]]. rewrite E2. cbn [bind]. exists p2. split; [reflexivity|exact R2].
Qed.

(** Signed fields. *)
Lemma sextended_ok : forall k p bs (n : nat), k <> LSB -> Repr k p bs -> (n <= 32)%nat -> (n <= length bs)%nat ->
  exists p', get_ibits_sextended k p (Z.of_nat n) = Ok (signed_value (firstn n bs), p') /\ Repr k p' (skipn n bs).
Proof.
  intros k p bs n Hk R Hn Hl. unfold get_ibits_sextended, get_ibits.
  destruct (get_bits_ok k p bs n R Hn Hl) as [p' [E R']]. rewrite E. cbn [bind].
  unfold u32sub. rewrite arith_u_ok by p2lia. cbn [bind].
  exists p'. split; [|assumption]. do 2 f_equal.
  replace (value_of k (firstn n bs)) with (number (firstn n bs)) by (destruct k; [congruence|reflexivity..]).
  set (l := firstn n bs). assert (Ll : length l = n) by (apply firstn_length_le; assumption).
  pose proof (number_range l) as Hr. rewrite Ll in Hr.
  unfold i32_wrapping_shr, i32_wrapping_shl. destruct n as [|n].
  - destruct l; [|discriminate]. cbn. reflexivity.
  - set (s := 32 - Z.of_nat (S n)). rewrite (Z.mod_small s) by lia.
    rewrite Z.shiftl_mul_pow2, Z.shiftr_div_pow2 by lia.
    set (v := number l) in *.
    assert (Hs : 0 <= s <= 31) by lia.
    assert (E32 : 2 ^ 32 = 2 ^ s * (2 * 2 ^ Z.of_nat n)).
    { rewrite <- pow2_S, <- Z.pow_add_r by lia. f_equal. lia. }
    assert (E31 : 2 ^ 31 = 2 ^ s * 2 ^ Z.of_nat n).
    { rewrite <- Z.pow_add_r by lia. f_equal. lia. }
    pose proof (pow2_pos s ltac:(lia)) as Hps. pose proof (pow2_pos_nat n) as Hpn.
    assert (W : as_i32 (as_i32 v * 2 ^ s) = as_i32 (v * 2 ^ s)).
    { unfold as_i32, swrap. f_equal.
      destruct (swrap_spec 32 v ltac:(lia)) as [_ Em].
      rewrite <- Z.add_mod_idemp_l by lia. rewrite (Z.mul_mod (swrap 32 v)) by lia.
      unfold swrap in Em |- *. rewrite Em. rewrite <- Z.mul_mod by lia. rewrite Z.add_mod_idemp_l by lia. reflexivity. }
    rewrite W. unfold signed_value. fold v.
    rewrite pow2_S in Hr.
    assert (HT : exists b t, l = b :: t /\ length t = n).
    { destruct l as [|b t]; [discriminate|]. exists b, t. split; [reflexivity|]. cbn in Ll. lia. }
    destruct HT as [b [t [El Lt]]]. rewrite El.
    assert (Ev : v = Z.b2z b * 2 ^ Z.of_nat n + number t).
    { unfold v. rewrite El. cbn [number]. rewrite Lt. reflexivity. }
    pose proof (number_range t) as Ht. rewrite Lt in Ht.
    destruct b; cbn [Z.b2z] in Ev.
    + assert (EW : as_i32 (v * 2 ^ s) = (v - 2 * 2 ^ Z.of_nat n) * 2 ^ s).
      { unfold as_i32. replace (v * 2 ^ s) with ((v - 2 * 2 ^ Z.of_nat n) * 2 ^ s + 1 * 2 ^ 32) by lia.
        unfold swrap. replace ((v - 2 * 2 ^ Z.of_nat n) * 2 ^ s + 1 * 2 ^ 32 + 2 ^ (32 - 1))
          with ((v - 2 * 2 ^ Z.of_nat n) * 2 ^ s + 2 ^ 31 + 1 * 2 ^ 32) by (change (32 - 1) with 31; lia).
        rewrite Z.mod_add by lia. change (32 - 1) with 31.
        rewrite Z.mod_small; [lia|]. rewrite E32, E31. nia. }
      rewrite EW, Z.div_mul by lia.
      cbn [length]. rewrite Lt, pow2_S. rewrite Ev. lia.
    + assert (EW : as_i32 (v * 2 ^ s) = v * 2 ^ s).
      { apply swrap_small; [lia|]. change (32 - 1) with 31. rewrite E31. nia. }
      rewrite EW, Z.div_mul by lia. reflexivity.
Qed.

(** A word reader that runs out of bits fails; it never makes up a value. *)
Lemma pending_length : forall k p, k <> JPEG -> wf k p ->
  Z.of_nat (length (pending k p)) = pnbits p + 32 * (zlen (rest p) / 4).
Proof.
  intros k p Hk W. unfold pending. rewrite (wf_fin _ _ W Hk), app_length, cache_length.
  pose proof (wf_nb _ _ W). pose proof (rest_bytes _ _ W) as Hb.
  assert (G : forall n l, (length l <= n)%nat -> bytes l -> Z.of_nat (length (source k l)) = 32 * (zlen l / 4)).
  { induction n; intros l Hl HB.
    - rewrite source_empty by (try assumption; lia). unfold zlen. cbn [length]. lia.
    - destruct (Nat.lt_ge_cases (length l) 4).
      + rewrite source_empty by assumption. unfold zlen. cbn [length]. lia.
      + rewrite source_step by assumption. rewrite app_length.
        replace (length (match k with LSB => zlsb 32 | _ => zbits 32 end (inword k l))) with 32%nat
          by (destruct k; rewrite ?zlsb_length, ?zbits_length; reflexivity).
        rewrite Nat2Z.inj_add, IHn; [|rewrite skipn_length; lia|apply Forall_skipn; assumption].
        rewrite zlen_skipn. unfold zlen. lia. }
  rewrite Nat2Z.inj_add, (G (length (rest p))) by (auto). lia.
Qed.

Lemma peek_exhausted : forall k p (n : nat), k <> JPEG -> wf k p -> (n <= 32)%nat ->
  (length (pending k p) < n)%nat -> peek_bits k p (Z.of_nat n) = Panic.
Proof.
  intros k p n Hk W Hn Hl. pose proof (pending_length k p Hk W) as L.
  pose proof (wf_nb _ _ W) as Wn. pose proof (wf_pos _ _ W).
  assert (zlen (rest p) / 4 = 0) by (pose proof (zlen_nonneg (rest p)); lia).
  assert (Hs : zlen (rest p) < 4) by (pose proof (zlen_nonneg (rest p)); lia).
  rewrite rest_length in Hs.
  destruct k; [| | |congruence]; cbn [peek_bits];
    [unfold lsb_peek|unfold msb_peek|unfold msb32_peek];
    replace (pnbits p <? Z.of_nat n) with true by lia;
    rewrite ?LEu32_oob, ?BEu32_oob by lia; reflexivity.
Qed.

Lemma peek_pending : forall k p (n : nat) v p', k <> JPEG -> wf k p -> (n <= 32)%nat ->
  peek_bits k p (Z.of_nat n) = Ok (v, p') -> length (pending k p') = length (pending k p).
Proof.
  intros k p n v p' Hk W Hn E.
  assert (Hl : (n <= length (pending k p))%nat).
  { destruct (Nat.le_gt_cases n (length (pending k p))); [assumption|].
    rewrite peek_exhausted in E by assumption. discriminate. }
  assert (R : Repr k p (pending k p)) by (constructor; auto).
  destruct (peek_ok k p _ n R Hn Hl) as [p1 [E1 [R1 _]]]. rewrite E in E1. injection E1 as _ <-.
  apply Nat2Z.inj. rewrite !pending_length by (try assumption; apply R1).
  pose proof (wf_nb _ _ W) as Wn. pose proof (wf_pos _ _ W) as Wp.
  assert (F : forall q b, q = mkpump (pbuf p) (ppos p + 4) b (pnbits p + 32) (pfin p) ->
     4 <= zlen (rest p) -> pnbits q + 32 * (zlen (rest q) / 4) = pnbits p + 32 * (zlen (rest p) / 4)).
  { intros q b -> Hr. cbn [pnbits]. rewrite !rest_length in *. cbn [pbuf ppos] in *. lia. }
  destruct (Z_lt_ge_dec (pnbits p) (Z.of_nat n)).
  - pose proof (words_left k p _ n Hk R Hl ltac:(lia)) as Hw.
    destruct k; [| | |congruence]; cbn [peek_bits] in E;
    [unfold lsb_peek in E|unfold msb_peek in E|unfold msb32_peek in E];
    replace (pnbits p <? Z.of_nat n) with true in E by lia;
    unfold msb_push32, u32sub, u32add in E;
    repeat match goal with H : bind _ _ = Ok _ |- _ => inv_bind H end;
    repeat match goal with H : arith_u _ (pnbits p + 32) = Ok _ |- _ => rewrite arith_u_ok in H by p2lia end;
    repeat match goal with H : Ok _ = Ok _ |- _ => injection H; clear H; intros; subst end;
    (eapply F; [reflexivity|assumption]).
  - assert (p' = p); [|subst; reflexivity].
    destruct k; [| | |congruence]; cbn [peek_bits] in E;
    [unfold lsb_peek in E|unfold msb_peek in E|unfold msb32_peek in E];
    replace (pnbits p <? Z.of_nat n) with false in E by lia; cbn [bind] in E;
    repeat match goal with H : bind _ _ = Ok _ |- _ => inv_bind H end; congruence.
Qed.

(** Exact form: what is pending after a request. *)
Lemma do_request_exact : forall k r p v p', k <> JPEG -> wf k p -> request_ok r ->
  do_request k p r = Ok (v, p') -> (needs r <= length (pending k p))%nat /\
    wf k p' /\ length (pending k p') = length (skipn (drops r) (pending k p)).
Proof.
  intros k r p v p' Hk W Hr E.
  assert (R : Repr k p (pending k p)) by (constructor; auto).
  assert (C : forall q (m : nat) q', wf k q -> consume_bits k q (Z.of_nat m) = Ok q' -> Z.of_nat m <= pnbits q ->
     wf k q' /\ length (pending k q') = (length (pending k q) - m)%nat).
  { intros q m q' Wq Ec Hm. assert (Rq : Repr k q (pending k q)) by (constructor; auto).
    destruct (consume_ok k q _ m Rq Hm) as [q2 [E2 [R2 N2]]]. rewrite Ec in E2. injection E2 as <-.
    split; [apply R2|]. apply Nat2Z.inj. rewrite Nat2Z.inj_sub.
    2:{ pose proof (pending_length k q Hk Wq). pose proof (zlen_nonneg (rest q)). lia. }
    rewrite !pending_length by (try assumption; apply R2). rewrite N2.
    assert (Er : rest q' = rest q); [|rewrite Er; lia].
    destruct k; cbn [consume_bits] in Ec; [unfold lsb_consume in Ec|unfold msb_consume in Ec..];
      repeat match goal with H : bind _ _ = Ok _ |- _ => inv_bind H end; injection Ec as <-; reflexivity. }
  assert (P : forall n v1 p1, (n <= 32)%nat -> peek_bits k p (Z.of_nat n) = Ok (v1, p1) ->
     (n <= length (pending k p))%nat /\ wf k p1 /\ Z.of_nat n <= pnbits p1).
  { intros n v1 p1 Hn Ep. assert (Hl : (n <= length (pending k p))%nat).
    { destruct (Nat.le_gt_cases n (length (pending k p))); [assumption|].
      rewrite peek_exhausted in Ep by assumption. discriminate. }
    split; [assumption|]. destruct (peek_ok k p _ n R Hn Hl) as [p2 [E2 [R2 N2]]].
    rewrite Ep in E2. injection E2 as _ <-. split; [apply R2|assumption]. }
  rewrite skipn_length. destruct r as [n|n|n m]; cbn [do_request needs drops request_ok] in *.
  - destruct (P _ _ _ Hr E) as [P1 [P2 _]]. split; [assumption|]. split; [assumption|].
    rewrite (peek_pending k p n v p') by assumption. lia.
  - unfold get_bits in E. destruct (Z.of_nat n =? 0) eqn:E0.
    + injection E as _ <-. split; [lia|]. split; [assumption|]. lia.
    + repeat match goal with H : bind _ _ = Ok _ |- _ => inv_bind H; destruct_pairs end.
      match goal with H : peek_bits _ _ _ = Ok _ |- _ => rename H into Ep end.
      match goal with H : consume_bits _ _ _ = Ok _ |- _ => rename H into Ec end.
      injection E as _ <-.
      destruct (P _ _ _ Hr Ep) as [P1 [P2 P3]]. destruct (C _ _ _ P2 Ec P3) as [C1 C2].
      split; [assumption|]. split; [assumption|]. rewrite C2, (peek_pending k p n _ _ Hk W Hr Ep). reflexivity.
  - destruct Hr as [Hr Hm].
    repeat match goal with H : bind _ _ = Ok _ |- _ => inv_bind H; destruct_pairs end.
    match goal with H : peek_bits _ _ _ = Ok _ |- _ => rename H into Ep end.
    match goal with H : consume_bits _ _ _ = Ok _ |- _ => rename H into Ec end.
    injection E as _ <-.
    destruct (P _ _ _ Hr Ep) as [P1 [P2 P3]]. destruct (C _ _ _ P2 Ec ltac:(lia)) as [C1 C2].
    split; [assumption|]. split; [assumption|]. rewrite C2, (peek_pending k p n _ _ Hk W Hr Ep). reflexivity.
Qed.

Lemma enough_length : forall rs a b, length a = length b -> enough rs a -> enough rs b.
Proof.
  induction rs as [|r rs IH]; intros a b E H; [exact I|]. destruct H as [H1 H2].
  split; [lia|]. eapply IH; [|exact H2]. rewrite !skipn_length. lia.
Qed.
Lemma do_requests_enough : forall k rs p vs p', k <> JPEG -> wf k p -> Forall request_ok rs ->
  do_requests k p rs = Ok (vs, p') -> enough rs (pending k p).
Proof.
  intros k. induction rs as [|r rs IH]; intros p vs p' Hk W HF E; [exact I|].
  apply Forall_cons_iff in HF. destruct HF as [Hr HF]. cbn [do_requests] in E.
  repeat match goal with H : bind _ _ = Ok _ |- _ => inv_bind H; destruct_pairs end.
  match goal with H : do_request _ _ _ = Ok _ |- _ => rename H into Ea end.
  match goal with H : do_requests _ _ _ = Ok _ |- _ => rename H into Eb end.
  destruct (do_request_exact _ _ _ _ _ Hk W Hr Ea) as [A [B C]].
  cbn [enough]. split; [assumption|]. eapply enough_length; [exact C|]. eapply IH; eassumption.
Qed.

(** Theorems about a fresh reader. *)
Theorem run_word_client : forall k buf rs, k <> JPEG -> bytes buf -> Forall request_ok rs ->
  enough rs (source k buf) -> run_client k buf rs = Ok (answers (value_of k) rs (source k buf)).
Proof.
  intros k buf rs Hk Hb HF HE. unfold run_client.
  destruct (do_requests_ok k rs _ _ (Repr_new_word k buf Hk Hb) HF HE) as [p' [E _]].
  rewrite E. reflexivity.
Qed.
Theorem run_word_client_fails : forall k buf rs vs, k <> JPEG -> bytes buf -> Forall request_ok rs ->
  run_client k buf rs = Ok vs -> enough rs (source k buf).
Proof.
  intros k buf rs vs Hk Hb HF E. unfold run_client in E. inv_bind E. destruct_pairs.
  pose proof (Repr_new_word k buf Hk Hb) as R.
  match goal with H : do_requests _ _ _ = Ok _ |- _ => rename H into Ea end.
  pose proof (do_requests_enough _ _ _ _ _ Hk (r_wf _ _ _ R) HF Ea) as H.
  replace (source k buf) with (pending k (pump_new buf)); [assumption|].
  destruct k; reflexivity.
Qed.
Theorem run_jpeg_client : forall buf rs n, bytes buf -> 4 <= zlen buf < 2 ^ 64 -> last buf 0 <> 255 ->
  Forall request_ok rs -> enough rs (bits_of (unstuff buf) ++ repeat false n) ->
  run_client JPEG buf rs = Ok (answers number rs (bits_of (unstuff buf) ++ repeat false n)).
Proof.
  intros buf rs n Hb Hl Hlast HF HE. unfold run_client.
  destruct (do_requests_ok JPEG rs _ _ (Repr_new_jpeg buf n Hb (conj Hl Hlast)) HF HE) as [p' [E _]].
  rewrite E. reflexivity.
Qed.
Theorem run_signed_client_word : forall k buf rs n, k <> LSB -> k <> JPEG -> bytes buf -> Forall request_ok rs ->
  (n <= 32)%nat -> enough (rs ++ [RGet n]) (source k buf) ->
  run_client_signed k buf rs n = Ok (signed_value (firstn n (remaining rs (source k buf)))).
Proof.
  intros k buf rs n Hl Hk Hb HF Hn HE. unfold run_client_signed.
  assert (HE2 : enough rs (source k buf) /\ (n <= length (remaining rs (source k buf)))%nat).
  { clear - HE. revert HE. generalize (source k buf). induction rs as [|r rs IH]; intros l HE.
    - destruct HE as [H _]. split; [exact I|exact H].
    - destruct HE as [H1 H2]. apply IH in H2. destruct H2. split; [split; assumption|assumption]. }
  destruct HE2 as [HE2 HL].
  destruct (do_requests_ok k rs _ _ (Repr_new_word k buf Hk Hb) HF HE2) as [p' [E R]].
  rewrite E. cbn [bind]. destruct (sextended_ok k p' _ n Hl R Hn HL) as [p2 [E2 _]].
  rewrite E2. reflexivity.
Qed.
Theorem run_signed_client_jpeg : forall buf rs n, bytes buf -> 4 <= zlen buf < 2 ^ 64 -> last buf 0 <> 255 ->
  Forall request_ok rs -> (n <= 32)%nat -> 
  run_client_signed JPEG buf rs n = Ok (signed_value (firstn n (remaining rs (bits_of (unstuff buf) ++ repeat false (32 * S (length rs)))))).
Proof.
  intros buf rs n Hb Hl Hlast HF Hn. unfold run_client_signed.
  assert (HE2 : forall bs, (32 * S (length rs) <= length bs)%nat -> enough rs bs /\ (n <= length (remaining rs bs))%nat).
  { clear - HF Hn. induction HF as [|r rs Hr HF IH]; intros bs Hl; [split; [exact I|cbn in *; lia]|].
    assert ((needs r <= 32)%nat /\ (drops r <= 32)%nat) by (destruct r; cbn in *; lia).
    cbn [enough remaining length] in *. destruct (IH (skipn (drops r) bs)); [rewrite skipn_length; lia|].
    split; [split; [lia|assumption]|assumption]. }
  destruct (HE2 (bits_of (unstuff buf) ++ repeat false (32 * S (length rs)))) as [H1 H2];
    [rewrite app_length, repeat_length; lia|].
  destruct (do_requests_ok JPEG rs _ _ (Repr_new_jpeg buf _ Hb (conj Hl Hlast)) HF H1) as [p' [E R]].
  rewrite E. cbn [bind]. destruct (sextended_ok JPEG p' _ n ltac:(discriminate) R Hn H2) as [p2 [E2 _]].
  rewrite E2. reflexivity.
Qed.

(** Padding. *)
Lemma whole_words_eq : forall l r, (length r < 4)%nat -> (exists q, length l = 4 * q)%nat ->
  whole_words (l ++ r) = l.
Proof.
  intros l r Hr [q Hq]. unfold whole_words. rewrite app_length.
  replace (4 * ((length l + length r) / 4))%nat with (length l) by lia.
  rewrite firstn_app, Nat.sub_diag, firstn_all. apply app_nil_r.
Qed.
Lemma bits_of_zeros : forall n, bits_of (zeros n) = repeat false (8 * Z.to_nat n).
Proof.
  intros n. unfold zeros. induction (Z.to_nat n) as [|m IH]; [reflexivity|].
  replace (8 * S m)%nat with (8 + 8 * m)%nat by lia. rewrite repeat_app, <- IH. reflexivity.
Qed.
Theorem run_padded_client : forall file rs, bytes file -> Forall request_ok rs ->
  enough rs (bits_of file ++ repeat false 64) ->
  run_client MSB (buffer_new file) rs = Ok (answers number rs (bits_of file ++ repeat false 64)).
Proof.
  intros file rs Hb HF HE.
  assert (Hbb : bytes (buffer_new file)).
  { apply Forall_app. split; [assumption|]. apply Forall_forall. intros x Hx. apply repeat_spec in Hx. subst x. unfold byte. lia. }
  assert (S : exists t, source MSB (buffer_new file) = (bits_of file ++ repeat false 64) ++ t).
  { cbn [source]. exists (skipn (8 * length file + 64) (bits_of (whole_words (buffer_new file)))).
    rewrite <- (firstn_skipn (8 * length file + 64) (bits_of (whole_words (buffer_new file)))) at 1.
    f_equal. unfold whole_words. rewrite bits_of_firstn, firstn_firstn.
    unfold buffer_new. rewrite app_length. unfold zeros at 1. rewrite repeat_length.
    rewrite Nat.min_l by (change (Z.to_nat 16) with 16%nat; lia).
    rewrite bits_of_app, firstn_app, bits_of_length.
    rewrite firstn_all2 by (rewrite bits_of_length; lia). f_equal.
    replace (8 * length file + 64 - 8 * length file)%nat with 64%nat by lia. reflexivity. }
  destruct S as [t St]. 
  pose proof (Repr_new_word MSB (buffer_new file) ltac:(discriminate) Hbb) as R.
  rewrite St in R.
  assert (R' : Repr MSB (pump_new (buffer_new file)) (bits_of file ++ repeat false 64)).
  { destruct R as [W A L]. constructor; [assumption| |].
    - intros i Hi. rewrite <- A by (rewrite app_length; lia). symmetry. apply app_nth1. assumption.
    - intros Hk. specialize (L Hk). rewrite app_length in L. lia. }
  unfold run_client. destruct (do_requests_ok MSB rs _ _ R' HF HE) as [p' [E _]]. rewrite E. reflexivity.
Qed.
End WithMode.

Theorem word_client_enough : forall {M : Mode} k buf rs vs, k <> JPEG -> bytes buf -> Forall request_ok rs ->
  run_client k buf rs = Ok vs ->
  enough rs (match k with
             | LSB => bits_of_lsb (whole_words buf)
             | MSB => bits_of (whole_words buf)
             | _ => bits_of (swapped 4 buf) end).
Proof.
  intros M k buf rs vs Hk Hb HF E. pose proof (run_word_client_fails k buf rs vs Hk Hb HF E) as H.
  destruct k; try exact H. congruence.
Qed.
Theorem jpeg_short_data : exists buf, bytes buf /\ last buf 0 <> 255 /\
  run_client (M := true) JPEG buf [RGet 1] = Panic.
Proof. exists [1; 2; 3]. split; [repeat constructor; discriminate|]. split; [discriminate|reflexivity]. Qed.
Theorem jpeg_trailing_ff : forall M : Mode, exists buf, bytes buf /\ 4 <= Z.of_nat (length buf) /\
  run_client (M := M) JPEG buf [RGet 32; RGet 8] = Panic.
Proof.
  intros M. exists [1; 2; 3; 4; 255]. split; [repeat constructor; discriminate|].
  split; [discriminate|]. destruct M; reflexivity.
Qed.
Theorem signed_client : forall {M : Mode} k buf rs n, bytes buf -> Forall request_ok rs -> (n <= 32)%nat ->
  (k = MSB -> enough (rs ++ [RGet n]) (bits_of (whole_words buf)) ->
     run_client_signed k buf rs n = Ok (signed_value (firstn n (remaining rs (bits_of (whole_words buf)))))) /\
  (k = MSB32 -> enough (rs ++ [RGet n]) (bits_of (swapped 4 buf)) ->
     run_client_signed k buf rs n = Ok (signed_value (firstn n (remaining rs (bits_of (swapped 4 buf)))))) /\
  (k = JPEG -> 4 <= Z.of_nat (length buf) < 2 ^ 64 -> last buf 0 <> 255 ->
     run_client_signed k buf rs n = Ok (signed_value (firstn n (remaining rs
       (bits_of (unstuff buf) ++ repeat false (32 * S (length rs))))))).
Proof.
  intros M k buf rs n Hb HF Hn. split; [|split]; intros ->.
  - intros HE. apply run_signed_client_word; auto; discriminate.
  - intros HE. apply run_signed_client_word; auto; discriminate.
  - intros. apply run_signed_client_jpeg; assumption.
Qed.
