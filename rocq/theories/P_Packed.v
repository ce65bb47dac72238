(** Packed layouts: every decoder of packed.rs returns the documented fields. *)
From Coq Require Import ZArith List Bool Lia ZifyBool ZifyNat Arith.
From Verif Require Import Base Bytes Threads Lookup Packed Spec_Bits Spec_Image Spec_Packed P_Base P_Bits P_Threads P_Pumps.
Import ListNotations.
Local Open Scope Z_scope.
Ltac Zify.zify_post_hook ::= Z.div_mod_to_equations.

(** * Lists of fields *)
Definition fields (value : list bool -> Z) (nb n : nat) (bs : list bool) : list Z :=
  map (fun k => value (firstn nb (skipn (nb * k) bs))) (seq 0 n).
Lemma fields_length : forall value nb n bs, length (fields value nb n bs) = n.
Proof. intros. unfold fields. rewrite map_length, seq_length. reflexivity. Qed.
Lemma fields_nth : forall value nb n bs k, (k < n)%nat ->
  nth k (fields value nb n bs) 0 = value (firstn nb (skipn (nb * k) bs)).
Proof.
  intros value nb n bs k Hk. exact (nth_map_seq (fun k => value (firstn nb (skipn (nb * k) bs))) n k 0 Hk).
Qed.
Lemma fields_app : forall value nb n m a b, length a = (nb * n)%nat ->
  fields value nb n (a ++ b) ++ fields value nb m b = fields value nb (n + m) (a ++ b).
Proof.
  intros value nb n m a b Ha. unfold fields. rewrite seq_app, map_app. f_equal.
  cbn [Nat.add]. replace (seq n m) with (map (fun k => (n + k)%nat) (seq 0 m)) by (rewrite seq_map_add; f_equal; lia).
  rewrite map_map. apply map_ext.
  intros k. do 2 f_equal. rewrite Nat.mul_add_distr_l, skipn_app, (skipn_all2 a) by lia. cbn [app]. f_equal. lia.
Qed.
Lemma fields_prefix : forall value nb n a b, length a = (nb * n)%nat ->
  fields value nb n (a ++ b) = fields value nb n a.
Proof.
  intros value nb n a b Ha. unfold fields. apply map_ext_in. intros k Hk. apply in_seq in Hk. f_equal.
  rewrite skipn_app, firstn_app, skipn_length.
  replace (nb - (length a - nb * k))%nat with O by nia. rewrite firstn_O, app_nil_r. reflexivity.
Qed.

(** * Chunk loops *)
Section Chunks.
Variables (no ni : nat) (body : list Z -> list Z -> res (list Z)).
Hypothesis no_pos : (0 < no)%nat.
Lemma zip_chunks_fuel : forall f1 f2 out inb, (length out <= f1)%nat -> (length out <= f2)%nat ->
  zip_chunks_aux f1 no ni body out inb = zip_chunks_aux f2 no ni body out inb.
Proof.
  induction f1; intros f2 out inb H1 H2.
  - destruct out; [|cbn in H1; lia]. destruct f2; reflexivity.
  - destruct f2; [destruct out; [reflexivity|cbn in H2; lia]|].
    cbn [zip_chunks_aux]. destruct out as [|o out]; [reflexivity|]. destruct inb as [|i inb]; [reflexivity|].
    rewrite (IHf1 f2); [reflexivity| |]; rewrite skipn_length; cbn [length] in *; lia.
Qed.
Lemma zip_chunks_nil : forall inb, zip_chunks no ni body [] inb = Ok [].
Proof. reflexivity. Qed.
Lemma zip_chunks_nil_r : forall out, zip_chunks no ni body out [] = Ok out.
Proof. destruct out; reflexivity. Qed.
Lemma zip_chunks_cons : forall out inb, out <> [] -> inb <> [] ->
  zip_chunks no ni body out inb =
  (o <- body (firstn no out) (firstn ni inb) ;;
   r <- zip_chunks no ni body (skipn no out) (skipn ni inb) ;; Ok (o ++ r)).
Proof.
  intros out inb Ho Hi. unfold zip_chunks. destruct out as [|x out]; [congruence|]. destruct inb as [|y inb]; [congruence|].
  cbn [length zip_chunks_aux]. rewrite (zip_chunks_fuel (length out) (length (skipn no (x :: out)))); [reflexivity| |lia].
  rewrite skipn_length. cbn [length]. lia.
Qed.

(** Full groups: the output is the list of fields of the bit string [B inb]. *)
Variables (B : list Z -> list bool) (value : list bool -> Z) (nb : nat).
Hypothesis ni_pos : (0 < ni)%nat.
Hypothesis B_split : forall l, (ni <= length l)%nat -> B l = B (firstn ni l) ++ B (skipn ni l).
Hypothesis B_length : forall i, length i = ni -> length (B i) = (nb * no)%nat.
Hypothesis body_ok : forall o i, length o = no -> length i = ni -> bytes i ->
  body o i = Ok (fields value nb no (B i)).
Lemma zip_chunks_fields : forall m out inb, length out = (no * m)%nat -> (ni * m <= length inb)%nat -> bytes inb ->
  zip_chunks no ni body out inb = Ok (fields value nb (no * m) (B inb)).
Proof.
  induction m as [|m IH]; intros out inb Ho Hi Hb.
  - rewrite Nat.mul_0_r in *. destruct out; [|discriminate]. reflexivity.
  - rewrite Nat.mul_succ_r in *.
    rewrite zip_chunks_cons by (intros ->; cbn in *; lia).
    assert (Lf : length (firstn ni inb) = ni) by (apply firstn_length_le; lia).
    rewrite body_ok; [|apply firstn_length_le; lia|assumption|apply Forall_firstn; assumption].
    cbn [bind]. rewrite IH; [|rewrite skipn_length; lia|rewrite skipn_length; lia|apply Forall_skipn; assumption].
    cbn [bind]. f_equal.
    rewrite <- (fields_prefix value nb no (B (firstn ni inb)) (B (skipn ni inb))) by (apply B_length; assumption).
    rewrite fields_app by (apply B_length; assumption).
    rewrite <- B_split by lia. f_equal. lia.
Qed.
End Chunks.

(** * Pixels from bytes *)
Lemma mod8 : forall n, (n <= 8)%nat -> 0 < 2 ^ Z.of_nat (8 - n).
Proof. intros. apply pow2_pos. lia. Qed.
(** The low [p] bits of [a] followed by the high [q] bits of [b]. *)
Lemma join_bits : forall a b (p q : nat), byte a -> byte b -> (p <= 8)%nat -> (q <= 8)%nat ->
  Z.lor (Z.shiftl (Z.land a (2 ^ Z.of_nat p - 1)) (Z.of_nat q)) (Z.shiftr b (Z.of_nat (8 - q)))
  = number (skipn (8 - p) (byte_bits a) ++ firstn q (byte_bits b)).
Proof.
  intros a b p q Ha Hb Hp Hq. rewrite (byte_bits_zbits a), (byte_bits_zbits b).
  replace (zbits 8 a) with (zbits ((8 - p) + p) a) by (f_equal; lia).
  replace (zbits 8 b) with (zbits (q + (8 - q)) b) by (f_equal; lia).
  rewrite skipn_zbits, firstn_zbits, number_app, !number_zbits, zbits_length.
  rewrite land_ones_mod by lia. rewrite Z.shiftr_div_pow2 by lia.
  assert (Rb : 0 <= b / 2 ^ Z.of_nat (8 - q) < 2 ^ Z.of_nat q).
  { pose proof (mod8 q Hq). split; [apply Z.div_pos; unfold byte in *; lia|].
    apply Z.div_lt_upper_bound; [assumption|]. rewrite <- Z.pow_add_r by lia.
    replace (Z.of_nat (8 - q) + Z.of_nat q) with 8 by lia. exact (proj2 Hb). }
  rewrite lor_shiftl_add by (try lia; assumption).
  rewrite (Z.mod_small (b / _)) by assumption. reflexivity.
Qed.
Lemma join_bits_full : forall a b (q : nat), byte a -> byte b -> (q <= 8)%nat ->
  Z.lor (Z.shiftl a (Z.of_nat q)) (Z.shiftr b (Z.of_nat (8 - q)))
  = number (byte_bits a ++ firstn q (byte_bits b)).
Proof.
  intros a b q Ha Hb Hq. pose proof (join_bits a b 8 q Ha Hb ltac:(lia) Hq) as H.
  rewrite land_ones_mod in H by lia. change (2 ^ Z.of_nat 8) with 256 in H. rewrite Z.mod_small in H by exact Ha. exact H.
Qed.
Lemma join_bits_all : forall a b (p : nat), byte a -> byte b -> (p <= 8)%nat ->
  Z.lor (Z.shiftl (Z.land a (2 ^ Z.of_nat p - 1)) 8) b
  = number (skipn (8 - p) (byte_bits a) ++ byte_bits b).
Proof.
  intros a b p Ha Hb Hp. pose proof (join_bits a b p 8 Ha Hb Hp ltac:(lia)) as H.
  change (Z.of_nat (8 - 8)) with 0 in H. change (Z.of_nat 8) with 8 in H. rewrite Z.shiftr_0_r in H. exact H.
Qed.
(** Little endian: the low bits come first. *)
Lemma join_lsb : forall a b (p q : nat), byte a -> byte b -> (p <= 8)%nat -> (q <= 8)%nat ->
  Z.lor (Z.shiftl (Z.land b (2 ^ Z.of_nat q - 1)) (Z.of_nat p)) (Z.shiftr a (Z.of_nat (8 - p)))
  = number_lsb (skipn (8 - p) (byte_bits_lsb a) ++ firstn q (byte_bits_lsb b)).
Proof.
  intros a b p q Ha Hb Hp Hq. rewrite (byte_bits_lsb_zlsb a), (byte_bits_lsb_zlsb b).
  replace (zlsb 8 a) with (zlsb ((8 - p) + p) a) by (f_equal; lia).
  replace (zlsb 8 b) with (zlsb (q + (8 - q)) b) by (f_equal; lia).
  rewrite skipn_zlsb, firstn_zlsb, number_lsb_app, !number_lsb_zlsb, zlsb_length.
  rewrite land_ones_mod by lia. rewrite Z.shiftr_div_pow2 by lia.
  assert (Rb : 0 <= a / 2 ^ Z.of_nat (8 - p) < 2 ^ Z.of_nat p).
  { pose proof (mod8 p Hp). split; [apply Z.div_pos; unfold byte in *; lia|].
    apply Z.div_lt_upper_bound; [assumption|]. rewrite <- Z.pow_add_r by lia.
    replace (Z.of_nat (8 - p) + Z.of_nat p) with 8 by lia. exact (proj2 Ha). }
  rewrite lor_shiftl_add by (try lia; assumption).
  rewrite (Z.mod_small (a / _)) by assumption. lia.
Qed.

Lemma list_length_S : forall {A} (l : list A) n, length l = S n -> exists x t, l = x :: t /\ length t = n.
Proof. intros A [|x t] n H; [discriminate|]. exists x, t. split; [reflexivity|]. injection H; auto. Qed.
Ltac explode l H := repeat (let x := fresh "x" in let t := fresh "t" in let E := fresh "E" in
  match type of H with
  | length ?v = S _ => apply list_length_S in H; destruct H as [x [t [E H]]]; subst v
  | length ?v = O => apply length_zero_iff_nil in H; subst v
  end).

Ltac open_body o Ho i Hi Hb := explode o Ho; explode i Hi; bytes_inv Hb.
Ltac close_pixels tac := apply f_equal; repeat (apply (f_equal2 (@cons Z)); [tac|]); reflexivity.

Lemma body_12be_ok : forall o i, length o = 2%nat -> length i = 3%nat -> bytes i ->
  body_12be o i = Ok (fields number 12 2 (bits_of i)).
Proof.
  intros o i Ho Hi Hb. open_body o Ho i Hi Hb.
  match goal with |- body_12be _ [?a; ?b; ?c] = _ =>
    change (Ok [Z.lor (Z.shiftl a 4) (Z.shiftr b 4); Z.lor (Z.shiftl (Z.land b 15) 8) c] =
      Ok [number (byte_bits a ++ firstn 4 (byte_bits b)); number (skipn 4 (byte_bits b) ++ byte_bits c)]) end.
  close_pixels ltac:(first [apply (join_bits_full _ _ 4); auto; lia | apply (join_bits_all _ _ 4); auto; lia]).
Qed.
Lemma body_12le_ok : forall o i, length o = 2%nat -> length i = 3%nat -> bytes i ->
  body_12le o i = Ok (fields number_lsb 12 2 (bits_of_lsb i)).
Proof.
  intros o i Ho Hi Hb. open_body o Ho i Hi Hb.
  match goal with |- body_12le _ [?a; ?b; ?c] = _ =>
    change (Ok [Z.lor (Z.shiftl (Z.land b 15) 8) a; Z.lor (Z.shiftl c 4) (Z.shiftr b 4)] =
      Ok [number_lsb (byte_bits_lsb a ++ firstn 4 (byte_bits_lsb b));
          number_lsb (skipn 4 (byte_bits_lsb b) ++ byte_bits_lsb c)]);
    pose proof (join_lsb a b 8 4 ltac:(assumption) ltac:(assumption) ltac:(lia) ltac:(lia)) as J1;
    pose proof (join_lsb b c 4 8 ltac:(assumption) ltac:(assumption) ltac:(lia) ltac:(lia)) as J2;
    change (Z.of_nat (8 - 8)) with 0 in J1; rewrite Z.shiftr_0_r in J1;
    rewrite (land_ones_mod c) in J2 by lia; change (2 ^ Z.of_nat 8) with 256 in J2;
    rewrite (Z.mod_small c) in J2 by assumption
  end.
  close_pixels ltac:(first [exact J1|exact J2]).
Qed.
Lemma body_10le_lsb16_ok : forall o i, length o = 8%nat -> length i = 10%nat -> bytes i ->
  body_10le_lsb16 o i = Ok (fields number 10 8 (bits_of (swapped 2 i))).
Proof.
  intros o i Ho Hi Hb. open_body o Ho i Hi Hb.
  unfold body_10le_lsb16. cbv -[Z.lor Z.land Z.shiftl Z.shiftr fields bits_of swapped number].
  match goal with |- _ = Ok (fields _ _ _ (bits_of (swapped 2 [?a; ?b; ?c; ?d; ?e; ?f; ?g; ?h; ?i; ?j]))) =>
    change (fields number 10 8 (bits_of (swapped 2 [a; b; c; d; e; f; g; h; i; j]))) with
     [number (byte_bits b ++ firstn 2 (byte_bits a)); number (skipn 2 (byte_bits a) ++ firstn 4 (byte_bits d));
      number (skipn 4 (byte_bits d) ++ firstn 6 (byte_bits c)); number (skipn 6 (byte_bits c) ++ byte_bits f);
      number (byte_bits e ++ firstn 2 (byte_bits h)); number (skipn 2 (byte_bits h) ++ firstn 4 (byte_bits g));
      number (skipn 4 (byte_bits g) ++ firstn 6 (byte_bits j)); number (skipn 6 (byte_bits j) ++ byte_bits i)] end.
  close_pixels ltac:(first [apply (join_bits_full _ _ 2); auto; lia | apply (join_bits _ _ 6 4); auto; lia
     | apply (join_bits _ _ 4 6); auto; lia | apply (join_bits_all _ _ 2); auto; lia]).
Qed.
Lemma body_12be_msb16_ok : forall o i, length o = 4%nat -> length i = 6%nat -> bytes i ->
  body_12be_msb16 o i = Ok (fields number 12 4 (bits_of (swapped 2 i))).
Proof.
  intros o i Ho Hi Hb. open_body o Ho i Hi Hb.
  unfold body_12be_msb16. cbv -[Z.lor Z.land Z.shiftl Z.shiftr fields bits_of swapped number].
  match goal with |- _ = Ok (fields _ _ _ (bits_of (swapped 2 [?a; ?b; ?c; ?d; ?e; ?f]))) =>
    change (fields number 12 4 (bits_of (swapped 2 [a; b; c; d; e; f]))) with
     [number (byte_bits b ++ firstn 4 (byte_bits a)); number (skipn 4 (byte_bits a) ++ byte_bits d);
      number (byte_bits c ++ firstn 4 (byte_bits f)); number (skipn 4 (byte_bits f) ++ byte_bits e)] end.
  close_pixels ltac:(first [apply (join_bits_full _ _ 4); auto; lia | apply (join_bits_all _ _ 4); auto; lia]).
Qed.
Lemma body_12be_msb32_ok : forall o i, length o = 8%nat -> length i = 12%nat -> bytes i ->
  body_12be_msb32 o i = Ok (fields number 12 8 (bits_of (swapped 4 i))).
Proof.
  intros o i Ho Hi Hb. open_body o Ho i Hi Hb.
  unfold body_12be_msb32. cbv -[Z.lor Z.land Z.shiftl Z.shiftr fields bits_of swapped number].
  match goal with |- _ = Ok (fields _ _ _ (bits_of (swapped 4 [?a; ?b; ?c; ?d; ?e; ?f; ?g; ?h; ?i; ?j; ?k; ?l]))) =>
    change (fields number 12 8 (bits_of (swapped 4 [a; b; c; d; e; f; g; h; i; j; k; l]))) with
     [number (byte_bits d ++ firstn 4 (byte_bits c)); number (skipn 4 (byte_bits c) ++ byte_bits b);
      number (byte_bits a ++ firstn 4 (byte_bits h)); number (skipn 4 (byte_bits h) ++ byte_bits g);
      number (byte_bits f ++ firstn 4 (byte_bits e)); number (skipn 4 (byte_bits e) ++ byte_bits l);
      number (byte_bits k ++ firstn 4 (byte_bits j)); number (skipn 4 (byte_bits j) ++ byte_bits i)] end.
  close_pixels ltac:(first [apply (join_bits_full _ _ 4); auto; lia | apply (join_bits_all _ _ 4); auto; lia]).
Qed.
