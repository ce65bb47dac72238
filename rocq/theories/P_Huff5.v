(** Proofs about Huffman decoding: sequences, and the link to the specification. *)
From Coq Require Import String ZArith List Bool Lia ZifyBool ZifyNat.
From Verif Require Import Base Pumps Huffman Spec_Bits Spec_Pump Spec_Stream Spec_Huffman P_Base P_Bits P_Pumps
  P_Huff1 P_Huff2 P_Huff3 P_Huff4.
Import ListNotations.
Local Open Scope Z_scope.
Ltac Zify.zify_post_hook ::= Z.div_mod_to_equations.

Lemma Repr_new : forall k buf pad, readable k buf -> Repr k (pump_new buf) (stream k buf pad).
Proof.
  intros k buf pad [Hb Hj]. destruct k.
  - exact (Repr_new_word LSB buf ltac:(discriminate) Hb).
  - exact (Repr_new_word MSB buf ltac:(discriminate) Hb).
  - exact (Repr_new_word MSB32 buf ltac:(discriminate) Hb).
  - apply Repr_new_jpeg; [assumption|]. exact (Hj eq_refl).
Qed.

(** ** Canonical code words *)
Lemma sum_app : forall a b, sum (a ++ b) = sum a + sum b.
Proof. unfold sum. induction a as [|x a IH]; intros b; cbn [app fold_right]; [reflexivity|]. rewrite IH. lia. Qed.
Lemma space_app : forall L a b, space L (a ++ b) = space L a + space L b.
Proof. intros. unfold space. rewrite map_app. apply sum_app. Qed.
Lemma space_repeat : forall L l c, space L (repeat l c) = Z.of_nat c * 2 ^ (Z.of_nat L - Z.of_nat l).
Proof.
  intros L l c. unfold space, sum. induction c; [reflexivity|]. cbn [repeat map fold_right]. rewrite IHc.
  rewrite Nat2Z.inj_succ. lia.
Qed.
Lemma space_S : forall L ls, Forall (fun l => (l <= L)%nat) ls -> space (S L) ls = 2 * space L ls.
Proof.
  intros L ls H. unfold space, sum. induction H as [|l ls Hl H IH]; [reflexivity|]. cbn [map fold_right]. rewrite IH.
  replace (Z.of_nat (S L) - Z.of_nat l) with (Z.succ (Z.of_nat L - Z.of_nat l)) by lia. rewrite Z.pow_succ_r by lia. lia.
Qed.
Lemma lengths_from_app : forall a b l, lengths_from l (a ++ b) = lengths_from l a ++ lengths_from (l + length a) b.
Proof.
  induction a as [|x a IH]; intros b l; cbn [app lengths_from length].
  - rewrite Nat.add_0_r. reflexivity.
  - rewrite IH, <- app_assoc. do 3 f_equal. lia.
Qed.

Section Spec.
Variable counts : list Z.
Hypothesis Hc : code_table counts.
Notation bits := (0 :: counts).
Notation cn := (cn bits).
Notation Fn := (Fn bits).
Notation En := (En bits).
Notation ls := (lengths counts).

Lemma hlen : zlen bits = 17.
Proof. destruct Hc as [L _]. unfold zlen. cbn [length]. rewrite L. reflexivity. Qed.
Lemma hpos : Forall (fun c => 0 <= c) bits.
Proof. destruct Hc as [_ [P _]]. constructor; [lia|assumption]. Qed.
Lemma cn_S : forall n, (n < 16)%nat -> exists c, nth_error counts n = Some c /\ cn (S n) = c.
Proof.
  intros n Hn. destruct Hc as [L _]. destruct (nth_error counts n) as [c|] eqn:E.
  - exists c. split; [reflexivity|]. unfold P_Huff1.cn, znth. rewrite Nat2Z.id.
    cbn [nth]. apply nth_error_nth. assumption.
  - apply nth_error_None in E. lia.
Qed.
Lemma lens_lengths : forall n, (n <= 16)%nat -> lens bits n = lengths_from 1 (firstn n counts).
Proof.
  induction n; intros Hn; [reflexivity|]. cbn [lens]. rewrite IHn by lia.
  destruct (cn_S n ltac:(lia)) as [c [E1 E2]].
  assert (E : firstn (S n) counts = firstn n counts ++ [c]).
  { destruct (nth_error_split _ _ E1) as [a [b [-> La]]]. subst n.
    rewrite !firstn_app, firstn_all, Nat.sub_diag, firstn_all2 by lia.
    replace (S (length a) - length a)%nat with 1%nat by lia. cbn [firstn]. rewrite app_nil_r. reflexivity. }
  rewrite E, lengths_from_app. f_equal. destruct Hc as [L _]. rewrite firstn_length_le by lia.
  cbn [lengths_from]. rewrite app_nil_r, E2. reflexivity.
Qed.
Lemma lens_16 : lens bits 16 = ls.
Proof. rewrite lens_lengths by lia. unfold lengths. destruct Hc as [L _]. rewrite firstn_all2 by lia. reflexivity. Qed.
Lemma lens_le : forall n, Forall (fun l => (l <= n)%nat) (lens bits n).
Proof.
  induction n; [constructor|]. cbn [lens]. apply Forall_app. split.
  - eapply Forall_impl; [|exact IHn]. cbn. lia.
  - apply Forall_forall. intros x Hx. apply repeat_spec in Hx. lia.
Qed.
Lemma space_lens : forall n, space n (lens bits n) = En n.
Proof.
  induction n; [reflexivity|]. cbn [lens]. rewrite space_app, space_S by apply lens_le. rewrite IHn, space_repeat.
  rewrite Z.sub_diag. change (2 ^ 0) with 1. pose proof (cn_pos bits hpos (S n)). rewrite (En_S bits). lia.
Qed.
Lemma hkraft : En 16 <= 2 ^ 16.
Proof. rewrite <- space_lens, lens_16. destruct Hc as [_ [_ [_ K]]]. exact K. Qed.
Lemma hnumber : Fn 16 = Z.of_nat (length ls).
Proof. rewrite <- lens_16, (lens_length bits hpos). reflexivity. Qed.
Lemma hcount : Fn 16 <= 256.
Proof. rewrite hnumber. destruct Hc as [_ [_ [K _]]]. lia. Qed.

Lemma word_at : forall n i, (n < 16)%nat -> 0 <= i < cn (S n) ->
  nth (Z.to_nat (Fn n + i)) ls 0%nat = S n /\ codeword ls (Z.to_nat (Fn n + i)) = binary (S n) (2 * En n + i).
Proof.
  intros n i Hn Hi. pose proof (lens_length bits hpos n) as L. pose proof (Fn_pos bits hpos n) as P.
  destruct (lens_split bits (S n) 16 ltac:(lia)) as [r [Er _]]. rewrite lens_16 in Er. cbn [lens] in Er.
  assert (N : nth (Z.to_nat (Fn n + i)) ls 0%nat = S n).
  { rewrite Er, <- app_assoc. rewrite app_nth2 by lia. rewrite app_nth1 by (rewrite repeat_length; lia).
    rewrite nth_indep with (d' := S n) by (rewrite repeat_length; lia). apply nth_repeat. }
  split; [exact N|]. unfold codeword, code_value. rewrite N. f_equal.
  assert (E : firstn (Z.to_nat (Fn n + i)) ls = lens bits n ++ repeat (S n) (Z.to_nat i)).
  { rewrite Er, <- app_assoc, firstn_app.
    replace (Z.to_nat (Fn n + i) - length (lens bits n))%nat with (Z.to_nat i) by lia.
    rewrite firstn_all2 by lia. f_equal. rewrite firstn_app, repeat_length.
    replace (Z.to_nat i - Z.to_nat (cn (S n)))%nat with 0%nat by lia. rewrite firstn_O, app_nil_r.
    replace (Z.to_nat (cn (S n))) with (Z.to_nat i + (Z.to_nat (cn (S n)) - Z.to_nat i))%nat by lia.
    rewrite repeat_app, firstn_app, repeat_length, Nat.sub_diag, firstn_O, app_nil_r.
    apply firstn_all2. rewrite repeat_length. lia. }
  rewrite E, space_app, space_S by apply lens_le. rewrite space_lens, space_repeat, Z.sub_diag. change (2 ^ 0) with 1. lia.
Qed.
Lemma codeword_length : forall k, length (codeword ls k) = nth k ls 0%nat.
Proof. intros k. unfold codeword. rewrite binary_zbits. apply zbits_length. Qed.
Lemma symbol_class : forall k, (k < length ls)%nat -> exists n i, (n < 16)%nat /\ 0 <= i < cn (S n) /\ Z.of_nat k = Fn n + i.
Proof. intros k Hk. apply (class_of bits). rewrite hnumber. lia. Qed.
(** A stream that starts with a code word. *)
Lemma hit_word : forall k bs, (k < length ls)%nat -> firstn (nth k ls 0%nat) bs = codeword ls k ->
  exists n i, hit bits bs n i /\ Z.of_nat k = Fn n + i /\ nth k ls 0%nat = S n.
Proof.
  intros k bs Hk E. destruct (symbol_class k Hk) as [n [i [Hn [Hi Ek]]]]. exists n, i.
  destruct (word_at n i Hn Hi) as [W1 W2]. rewrite <- Ek, Nat2Z.id in W1, W2. split; [|split; assumption].
  rewrite W1, W2 in E.
  split; [assumption|]. split.
  - assert (H : length (firstn (S n) bs) = S n) by (rewrite E, binary_zbits; apply zbits_length).
    rewrite firstn_length in H. lia.
  - split; [assumption|]. rewrite E, binary_zbits, number_zbits. apply Z.mod_small.
    pose proof (En_pos bits hpos n). pose proof (En_bound bits hpos hkraft (S n) ltac:(lia)) as B.
    rewrite (En_S bits) in B. lia.
Qed.
Lemma hit_codeword : forall bs n i, hit bits bs n i ->
  let k := Z.to_nat (Fn n + i) in (k < length ls)%nat /\ nth k ls 0%nat = S n /\ firstn (S n) bs = codeword ls k.
Proof.
  intros bs n i [Hn [Hb [Hi E]]] k. destruct (word_at n i Hn Hi) as [W1 W2]. fold k in W1, W2.
  pose proof (Fn_pos bits hpos n). pose proof (Fn_mono bits hpos (S n) 16 ltac:(lia)) as FM.
  rewrite (Fn_S bits), hnumber in FM.
  split; [unfold k; lia|]. split; [assumption|]. rewrite W2, binary_zbits, <- E.
  rewrite <- (zbits_number (firstn (S n) bs)) at 1. rewrite firstn_length_le by assumption. reflexivity.
Qed.

(** ** Tables *)
Variable syms : list Z.
Hypothesis Hsl : length syms = length ls.
Hypothesis Hsb : bytes syms.
Notation vals := (syms ++ repeat 0 (256 - length syms)).
Lemma hvals : zlen vals = 256.
Proof. rewrite zlen_app. unfold zlen. rewrite repeat_length. destruct Hc as [_ [_ [K _]]]. lia. Qed.
Lemma hbytes : bytes vals.
Proof. apply Forall_app. split; [assumption|]. apply Forall_forall. intros x Hx. apply repeat_spec in Hx. subst x. unfold byte. lia. Qed.
Lemma htail : forall q, Fn 16 <= q -> znth vals q = 0.
Proof.
  intros q Hq. rewrite hnumber in Hq. unfold znth. rewrite app_nth2 by lia. rewrite nth_repeat. reflexivity.
Qed.
Lemma hval_at : forall k, (k < length ls)%nat -> znth vals (Z.of_nat k) = nth k syms 0.
Proof. intros k Hk. unfold znth. rewrite Nat2Z.id. apply app_nth1. lia. Qed.
Lemma hvals_le : (forall s, In s syms -> s <= 16) -> forall q, znth vals q <= 16.
Proof.
  intros H q. unfold znth. destruct (nth_in_or_default (Z.to_nat q) vals 0) as [I|I]; [|rewrite I; lia].
  apply in_app_or in I. destruct I as [I|I]; [apply H; assumption|]. apply repeat_spec in I. lia.
Qed.

Variable M : Mode.
Hypothesis Hfull : debug = true -> nth 15 counts 0 = 0 \/ space 16 ls < 2 ^ 16.
Lemma hfull : debug = true -> 0 < cn 16 -> En 16 < 2 ^ 16.
Proof.
  intros D C. destruct (Hfull D) as [E|E]; [|rewrite <- space_lens, lens_16; assumption].
  destruct (cn_S 15 ltac:(lia)) as [c [E1 E2]]. rewrite (nth_error_nth _ _ 0 E1) in E. lia.
Qed.

(** What building a table gives. *)
Lemma built : forall t0 ub t, hbits t0 = bits -> hval t0 = vals -> zlen (hvalptr t0) = 17 -> zlen (hmin t0) = 17 ->
  zlen (hmax t0) = 18 -> hnumbits t0 = zeros 256 -> huff_initialize t0 ub = Ok t ->
  table_ok bits vals t /\ hprec t = hprec t0 /\ hdng t = hdng t0 /\ huse_big t = ub /\
  (ub = true -> exists t1, huff_bigtable t1 = Ok (hbig t) /\ table_ok bits vals t1 /\ hprec t1 = hprec t /\ hdng t1 = hdng t
     /\ (forall i, big_entry t1 i = big_entry t i)).
Proof.
  intros t0 ub t E1 E2 L1 L2 L3 E3 EI.
  destruct (initialize_ok bits hlen hpos hkraft hcount vals hvals hbytes M t0 ub hfull E1 E2 L1 L2 L3 E3)
    as [vp [mn [mx [nb [E OK]]]]].
  rewrite E in EI. destruct ub.
  - destruct (huff_bigtable _) as [big| | |] eqn:EB in EI; cbn [bind] in EI; try discriminate. apply Ok_inj in EI. subst t.
    split; [apply OK|]. cbn [hprec hdng huse_big hbig]. split; [reflexivity|]. split; [reflexivity|]. split; [reflexivity|].
    intros _. eexists. split; [exact EB|]. split; [apply OK|]. split; [reflexivity|]. split; [reflexivity|]. intros i. reflexivity.
  - cbn [bind] in EI. apply Ok_inj in EI. subst t. split; [apply OK|]. cbn [hprec hdng huse_big].
    split; [reflexivity|]. split; [reflexivity|]. split; [reflexivity|]. discriminate.
Qed.
Lemma can_build : forall t0 ub, hbits t0 = bits -> hval t0 = vals -> zlen (hvalptr t0) = 17 -> zlen (hmin t0) = 17 ->
  zlen (hmax t0) = 18 -> hnumbits t0 = zeros 256 -> 0 <= hprec t0 <= 16 -> (forall s, In s syms -> s <= 16) ->
  (16 <= hprec t0 -> 0 < cn 16 -> 65528 < En 16 \/ Fn 16 + 65528 - En 16 <= 255) ->
  exists t, huff_initialize t0 ub = Ok t.
Proof.
  intros t0 ub E1 E2 L1 L2 L3 E3 HP HS HB.
  destruct (initialize_ok bits hlen hpos hkraft hcount vals hvals hbytes M t0 ub hfull E1 E2 L1 L2 L3 E3)
    as [vp [mn [mx [nb [E OK]]]]].
  rewrite E. destruct ub; [|eexists; reflexivity].
  destruct (bigtable_built bits hpos hcount vals hvals hbytes htail (hvals_le HS) M _
              (OK (hbig t0) (huse_big t0) (hinit t0)) HP HB) as [big EB].
  rewrite EB. cbn [bind]. eexists; reflexivity.
Qed.

(** ** Sequences of symbols *)
Variable t : hufftable.
Hypothesis Ht : table_ok bits vals t.

(** Words the decoder can reach. *)
Definition usable (k : nat) : Prop :=
  (nth k ls 0 <= 8)%nat \/ (Z.of_nat (nth k ls 0%nat) <= hprec t /\ ~ (k = 255%nat /\ (nth 254 ls 0 < nth 255 ls 0)%nat)).
Lemma usable_reachable : forall k n i, (n < 16)%nat -> 0 <= i < cn (S n) -> Z.of_nat k = Fn n + i -> usable k -> reachable bits t n.
Proof.
  intros k n i Hn Hi Ek U. destruct (word_at n i Hn Hi) as [W1 _]. rewrite <- Ek, Nat2Z.id in W1.
  destruct U as [U|[U1 U2]]; [left; lia|]. right. split; [lia|]. intros F. apply U2.
  pose proof (Fn_mono bits hpos (S n) 16 ltac:(lia)) as FM. rewrite (Fn_S bits) in FM. pose proof hcount.
  assert (k = 255%nat) by lia. subst k. split; [reflexivity|]. rewrite W1.
  destruct (class_of bits 254 ltac:(lia)) as [n' [i' [A [B C]]]].
  destruct (word_at n' i' A B) as [W2 _]. rewrite <- C in W2. change (Z.to_nat 254) with 254%nat in W2. rewrite W2.
  destruct (Nat.le_gt_cases (S n) (S n')) as [L|L]; [|assumption]. exfalso.
  pose proof (Fn_mono bits hpos n n' ltac:(lia)). lia.
Qed.
Lemma reachable_usable : forall k n i, (n < 16)%nat -> 0 <= i < cn (S n) -> Z.of_nat k = Fn n + i -> reachable bits t n -> usable k.
Proof.
  intros k n i Hn Hi Ek U. destruct (word_at n i Hn Hi) as [W1 _]. rewrite <- Ek, Nat2Z.id in W1.
  destruct U as [U|[U1 U2]]; [left; lia|]. right. split; [lia|]. intros [-> F]. rewrite W1 in F.
  destruct (class_of bits 254) as [n' [i' [A [B C]]]].
  { pose proof (Fn_mono bits hpos (S n) 16 ltac:(lia)) as FM. rewrite (Fn_S bits) in FM. lia. }
  destruct (word_at n' i' A B) as [W2 _]. rewrite <- C in W2. change (Z.to_nat 254) with 254%nat in W2. rewrite W2 in F.
  pose proof (Fn_mono bits hpos (S n') n ltac:(lia)) as FM. rewrite (Fn_S bits) in FM. lia.
Qed.

Lemma firstn_pre : forall (a b : list bool), firstn (length a) (a ++ b) = a.
Proof. intros. rewrite firstn_app, firstn_all, Nat.sub_diag, firstn_O, app_nil_r. reflexivity. Qed.
Lemma skipn_pre : forall (a b : list bool), skipn (length a) (a ++ b) = b.
Proof. intros. rewrite skipn_app, skipn_all, Nat.sub_diag. reflexivity. Qed.

Lemma symbols_ok : forall k ks p rest, k <> LSB -> (8 <= length rest)%nat ->
  Forall (fun j => (j < length ls)%nat /\ usable j) ks -> Repr k p (encode ls ks ++ rest) ->
  exists p', times (huff_len k t) (length ks) p = Ok (map (fun j => nth j syms 0) ks, p') /\ Repr k p' rest.
Proof.
  intros k ks p rest Hk Hr. revert p. induction ks as [|j ks IH]; intros p HF R.
  - exists p. split; [reflexivity|]. exact R.
  - inversion_clear HF as [|? ? [Hj Hu] HF']. cbn [length times map].
    unfold encode in *. cbn [flat_map] in R. rewrite <- app_assoc in R. fold (encode ls ks) in *.
    destruct (hit_word j (codeword ls j ++ encode ls ks ++ rest) Hj) as [n [i [Hh [Ej El]]]].
    { rewrite <- (codeword_length j) at 1. apply firstn_pre. }
    pose proof Hh as [Hn [_ [Hi _]]].
    pose proof (usable_reachable j n i Hn Hi Ej Hu) as RR.
    destruct (huff_len_hit bits hpos hkraft hcount vals hvals hbytes M t Ht k p _ n i Hk R) as [p1 [E1 R1]];
      [rewrite !app_length; lia|assumption|assumption|].
    rewrite <- Ej, hval_at in E1 by assumption. rewrite E1. cbn [bind].
    rewrite <- El, <- (codeword_length j), skipn_pre in R1.
    destruct (IH p1 HF' R1) as [p2 [E2 R2]]. rewrite E2. cbn [bind]. exists p2. split; [reflexivity|assumption].
Qed.
Lemma tail_bits : forall k p bs m, k <> LSB -> Repr k p bs -> (m <= 32)%nat -> (m <= length bs)%nat ->
  exists p', get_bits k p (Z.of_nat m) = Ok (number (firstn m bs), p').
Proof.
  intros k p bs m Hk R Hm HL. destruct (get_bits_ok k p bs m R Hm HL) as [p' [E _]]. exists p'. rewrite E.
  destruct k; [congruence| | |]; reflexivity.
Qed.

(** ** Sequences of differences *)
Hypothesis Hprec : 0 <= hprec t <= 16.
Hypothesis Hsyms : forall s, In s syms -> s <= 16.
(** Either the 13-bit table is not used, or it was built from this table and
    the words for category 16 have at most 13 bits and are not used with the
    DNG variant. *)
Definition shortcut_safe (u : hufftable) : Prop := huse_big u = false \/
  (huse_big u = true /\
   (exists t1, huff_bigtable t1 = Ok (hbig u) /\ table_ok bits vals t1 /\ hprec t1 = hprec u /\ hdng t1 = hdng u
     /\ (forall i, big_entry t1 i = big_entry u i)) /\
   (forall n i, (13 <= n)%nat -> (n < 16)%nat -> 0 <= i < cn (S n) -> znth vals (Fn n + i) <> 16) /\
   (hdng u = true -> forall n i, (n < 16)%nat -> 0 <= i < cn (S n) -> znth vals (Fn n + i) <> 16)).
Hypothesis Hshort : shortcut_safe t.

Lemma decode_hit : forall k p bs n i, k <> LSB -> Repr k p bs -> hit bits bs n i -> reachable bits t n ->
  (13 <= length bs)%nat -> (used t n (znth vals (Fn n + i)) <= length bs)%nat ->
  (znth vals (Fn n + i) = 16 -> (S n + 16 <= length bs)%nat) ->
  exists p', huff_decode k t p = Ok (meaning bs n (znth vals (Fn n + i)), p') /\
             Repr k p' (skipn (used t n (znth vals (Fn n + i))) bs).
Proof.
  intros k p bs n i Hk R Hh Hr L1 L2 L3.
  pose proof (fun p' R' => slow_hit bits hpos hkraft hcount vals hvals hbytes htail (hvals_le Hsyms) M t Ht k p' bs n i Hk R'
           ltac:(lia) Hh Hr L2 L3) as SL.
  destruct Hshort as [E|[E [B [C D]]]].
  - unfold huff_decode. rewrite E. apply SL. assumption.
  - destruct (fast_step bits hpos hcount vals hvals hbytes htail (hvals_le Hsyms) M t Ht Hprec B E C k p bs Hk R L1 D)
      as [[n' [i' [p' [Hh' [_ [_ [E' R']]]]]]]|[p' [E' R']]].
    + destruct (hit_unique bits hpos bs _ _ _ _ Hh Hh') as [<- <-]. exists p'. auto.
    + rewrite E'. apply SL. assumption.
Qed.
Lemma decode_refuse : forall k p bs, k <> LSB -> Repr k p bs -> (17 <= length bs)%nat ->
  (forall n i, hit bits bs n i -> ~ reachable bits t n) -> huff_decode k t p = Err "ljpeg: bad Huffman code".
Proof.
  intros k p bs Hk R HL N.
  assert (SL : forall p', Repr k p' bs -> huff_slow k t p' = Err "ljpeg: bad Huffman code").
  { intros p' R'. unfold huff_slow. destruct (hit_dec bits bs 16 ltac:(lia) ltac:(lia)) as [[n [i [Hn Hh]]]|NH].
    - rewrite (huff_len_unreachable bits hpos hcount vals hvals M t Ht k p' bs n i Hk R' ltac:(lia) Hh (N _ _ Hh)). reflexivity.
    - rewrite (huff_len_miss bits hpos vals M t Ht k p' bs Hk R' HL ltac:(lia) NH). reflexivity. }
  destruct Hshort as [E|[E [B [C D]]]].
  - unfold huff_decode. rewrite E. apply SL. assumption.
  - destruct (fast_step bits hpos hcount vals hvals hbytes htail (hvals_le Hsyms) M t Ht Hprec B E C k p bs Hk R ltac:(lia) D)
      as [[n' [i' [p' [Hh' [Hr' _]]]]]|[p' [E' R']]].
    + exfalso. exact (N _ _ Hh' Hr').
    + rewrite E'. apply SL. assumption.
Qed.
End Spec.
