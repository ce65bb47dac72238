(** Bit strings and numbers. *)
From Coq Require Import ZArith List Bool Lia ZifyBool ZifyNat.
From Verif Require Import Base Bytes Spec_Bits P_Base.
Import ListNotations.
Local Open Scope Z_scope.
Ltac Zify.zify_post_hook ::= Z.div_mod_to_equations.

Lemma pow2_pos : forall n, 0 <= n -> 0 < 2 ^ n.
Proof. intros; apply Z.pow_pos_nonneg; lia. Qed.
Lemma pow2_pos_nat : forall n : nat, 0 < 2 ^ Z.of_nat n.
Proof. intros; apply pow2_pos; lia. Qed.
Lemma pow2_S : forall n : nat, 2 ^ Z.of_nat (S n) = 2 * 2 ^ Z.of_nat n.
Proof. intros. rewrite Nat2Z.inj_succ, Z.pow_succ_r by lia. reflexivity. Qed.
Lemma pow2_add : forall n m : nat, 2 ^ Z.of_nat (n + m) = 2 ^ Z.of_nat n * 2 ^ Z.of_nat m.
Proof. intros. rewrite Nat2Z.inj_add, Z.pow_add_r by lia. reflexivity. Qed.

(** [n] bits of [v], most significant first. *)
Fixpoint zbits (n : nat) (v : Z) : list bool :=
  match n with
  | O => []
  | S m => Z.testbit v (Z.of_nat m) :: zbits m v
  end.
(** [n] bits of [v], least significant first. *)
Fixpoint zlsb (n : nat) (v : Z) : list bool :=
  match n with
  | O => []
  | S m => Z.odd v :: zlsb m (v / 2)
  end.

Lemma zbits_length : forall n v, length (zbits n v) = n.
Proof. induction n; intros; cbn; auto. Qed.
Lemma zlsb_length : forall n v, length (zlsb n v) = n.
Proof. induction n; intros; cbn; auto. Qed.

Lemma mod_pow2_S : forall v (n : nat),
  v mod 2 ^ Z.of_nat (S n) = Z.b2z (Z.testbit v (Z.of_nat n)) * 2 ^ Z.of_nat n + v mod 2 ^ Z.of_nat n.
Proof.
  intros v n. rewrite Z.testbit_spec' by lia. rewrite pow2_S.
  pose proof (pow2_pos_nat n) as Hp. set (k := 2 ^ Z.of_nat n) in *.
  rewrite (Z.mul_comm 2 k). rewrite Z.rem_mul_r by lia. lia.
Qed.

Lemma number_zbits : forall n v, number (zbits n v) = v mod 2 ^ Z.of_nat n.
Proof.
  induction n; intros v; cbn [zbits number].
  - cbn. rewrite Z.mod_1_r. reflexivity.
  - rewrite IHn, zbits_length, mod_pow2_S. lia.
Qed.
Lemma number_range : forall l, 0 <= number l < 2 ^ Z.of_nat (length l).
Proof.
  induction l as [|b t IH]; cbn [number length]; [cbn; lia|].
  rewrite pow2_S. destruct b; cbn [Z.b2z]; lia.
Qed.
Lemma number_lsb_range : forall l, 0 <= number_lsb l < 2 ^ Z.of_nat (length l).
Proof.
  induction l as [|b t IH]; cbn [number_lsb length]; [cbn; lia|].
  rewrite pow2_S. destruct b; cbn [Z.b2z]; lia.
Qed.
Lemma number_app : forall a b, number (a ++ b) = number a * 2 ^ Z.of_nat (length b) + number b.
Proof.
  induction a as [|x a IH]; intros b; cbn [number app]; [lia|].
  rewrite IH, app_length, pow2_add. lia.
Qed.
Lemma number_inj : forall a b, length a = length b -> number a = number b -> a = b.
Proof.
  induction a as [|x a IH]; intros [|y b] HL H; cbn in HL; try discriminate; auto.
  cbn [number] in H. injection HL as HL. rewrite HL in H.
  pose proof (number_range a). pose proof (number_range b). rewrite HL in *.
  destruct x, y; cbn [Z.b2z] in H; f_equal; try lia; apply IH; auto; lia.
Qed.
Lemma zbits_number : forall l, zbits (length l) (number l) = l.
Proof.
  intros l. apply number_inj; [apply zbits_length|].
  rewrite number_zbits. apply Z.mod_small. apply number_range.
Qed.
Lemma zbits_app : forall n m v, zbits (n + m) v = zbits n (v / 2 ^ Z.of_nat m) ++ zbits m v.
Proof.
  induction n; intros m v; cbn [zbits app Nat.add]; [reflexivity|].
  rewrite IHn. f_equal. rewrite Z.div_pow2_bits by lia. f_equal. lia.
Qed.
Lemma zbits_ext : forall n v w, v mod 2 ^ Z.of_nat n = w mod 2 ^ Z.of_nat n -> zbits n v = zbits n w.
Proof.
  intros n v w H. apply number_inj; [rewrite !zbits_length; reflexivity|].
  rewrite !number_zbits. assumption.
Qed.
Lemma zbits_mod : forall n v, zbits n (v mod 2 ^ Z.of_nat n) = zbits n v.
Proof.
  intros. apply zbits_ext. pose proof (pow2_pos_nat n). apply Z.mod_mod. lia.
Qed.
Lemma zbits_concat : forall n m v w, 0 <= w < 2 ^ Z.of_nat m ->
  zbits n v ++ zbits m w = zbits (n + m) (v * 2 ^ Z.of_nat m + w).
Proof.
  intros n m v w Hw. rewrite zbits_app. pose proof (pow2_pos_nat m). f_equal.
  - f_equal. rewrite Z.div_add_l by lia. rewrite (Z.div_small w) by lia. lia.
  - apply zbits_ext. rewrite Z.add_comm, Z.mod_add by lia. reflexivity.
Qed.
Lemma firstn_zbits : forall n m v, firstn n (zbits (n + m) v) = zbits n (v / 2 ^ Z.of_nat m).
Proof.
  intros. rewrite zbits_app, firstn_app, zbits_length, Nat.sub_diag, app_nil_r.
  rewrite firstn_all2; [reflexivity|rewrite zbits_length; lia].
Qed.
Lemma skipn_zbits : forall n m v, skipn n (zbits (n + m) v) = zbits m v.
Proof.
  intros. rewrite zbits_app, skipn_app, zbits_length, Nat.sub_diag.
  rewrite skipn_all2; [reflexivity|rewrite zbits_length; lia].
Qed.
Lemma zbits_0 : forall n, zbits n 0 = repeat false n.
Proof. induction n; cbn; [reflexivity|]. rewrite Z.testbit_0_l, IHn. reflexivity. Qed.
Lemma number_repeat_false : forall n, number (repeat false n) = 0.
Proof. intros; rewrite <- zbits_0, number_zbits. apply Z.mod_0_l. pose proof (pow2_pos_nat n); lia. Qed.

(** least significant first *)
Lemma number_lsb_zlsb : forall n v, number_lsb (zlsb n v) = v mod 2 ^ Z.of_nat n.
Proof.
  induction n; intros v; cbn [zlsb number_lsb].
  - cbn. rewrite Z.mod_1_r. reflexivity.
  - rewrite IHn, pow2_S. pose proof (pow2_pos_nat n).
    rewrite Z.rem_mul_r by lia. rewrite Zmod_odd. destruct (Z.odd v); cbn [Z.b2z]; lia.
Qed.
Lemma zlsb_app : forall n m v, zlsb (n + m) v = zlsb n v ++ zlsb m (v / 2 ^ Z.of_nat n).
Proof.
  induction n; intros m v; cbn [zlsb app Nat.add].
  - cbn. rewrite Z.div_1_r. reflexivity.
  - f_equal. rewrite IHn. do 2 f_equal. rewrite pow2_S.
    pose proof (pow2_pos_nat n). rewrite Z.div_div by lia. reflexivity.
Qed.
Lemma number_lsb_inj : forall a b, length a = length b -> number_lsb a = number_lsb b -> a = b.
Proof.
  induction a as [|x a IH]; intros [|y b] HL H; cbn in HL; try discriminate; auto.
  cbn [number_lsb] in H. injection HL as HL.
  destruct x, y; cbn [Z.b2z] in H; try lia; f_equal; apply IH; auto; lia.
Qed.
Lemma zlsb_ext : forall n v w, v mod 2 ^ Z.of_nat n = w mod 2 ^ Z.of_nat n -> zlsb n v = zlsb n w.
Proof.
  intros n v w H. apply number_lsb_inj; [rewrite !zlsb_length; reflexivity|].
  rewrite !number_lsb_zlsb. assumption.
Qed.
Lemma zlsb_concat : forall n m v w, 0 <= v < 2 ^ Z.of_nat n ->
  zlsb n v ++ zlsb m w = zlsb (n + m) (v + w * 2 ^ Z.of_nat n).
Proof.
  intros n m v w Hv. rewrite zlsb_app. pose proof (pow2_pos_nat n). f_equal.
  - apply zlsb_ext. rewrite Z.mod_add by lia. reflexivity.
  - f_equal. rewrite Z.div_add by lia. rewrite (Z.div_small v) by lia. lia.
Qed.
Lemma firstn_zlsb : forall n m v, firstn n (zlsb (n + m) v) = zlsb n v.
Proof.
  intros. rewrite zlsb_app, firstn_app, zlsb_length, Nat.sub_diag, app_nil_r.
  rewrite firstn_all2; [reflexivity|rewrite zlsb_length; lia].
Qed.
Lemma skipn_zlsb : forall n m v, skipn n (zlsb (n + m) v) = zlsb m (v / 2 ^ Z.of_nat n).
Proof.
  intros. rewrite zlsb_app, skipn_app, zlsb_length, Nat.sub_diag.
  rewrite skipn_all2; [reflexivity|rewrite zlsb_length; lia].
Qed.

(** bytes *)
Lemma byte_bits_zbits : forall b, byte_bits b = zbits 8 b.
Proof. reflexivity. Qed.
Lemma byte_bits_lsb_zlsb : forall b, byte_bits_lsb b = zlsb 8 b.
Proof.
  intros b. unfold byte_bits_lsb. cbn [map zlsb].
  rewrite !Z.div_div by lia. cbn [Z.mul Pos.mul].
  rewrite !Z.testbit_odd, !Z.shiftr_div_pow2 by lia. cbn [Z.pow Z.pow_pos Pos.iter Z.mul Pos.mul].
  rewrite Z.div_1_r. reflexivity.
Qed.
Lemma bits_of_app : forall a b, bits_of (a ++ b) = bits_of a ++ bits_of b.
Proof. intros; unfold bits_of; apply flat_map_app. Qed.
Lemma bits_of_lsb_app : forall a b, bits_of_lsb (a ++ b) = bits_of_lsb a ++ bits_of_lsb b.
Proof. intros; unfold bits_of_lsb; apply flat_map_app. Qed.
Lemma bits_of_length : forall l, length (bits_of l) = (8 * length l)%nat.
Proof. induction l; cbn; [reflexivity|]. unfold bits_of in IHl. rewrite IHl. lia. Qed.
Lemma bits_of_lsb_length : forall l, length (bits_of_lsb l) = (8 * length l)%nat.
Proof. induction l; cbn; [reflexivity|]. unfold bits_of_lsb in IHl. rewrite IHl. lia. Qed.
Lemma bits_of_skipn : forall n l, bits_of (skipn n l) = skipn (8 * n) (bits_of l).
Proof.
  induction n; intros l; [reflexivity|].
  destruct l; [cbn [skipn bits_of flat_map]; rewrite skipn_nil; reflexivity|].
  cbn [skipn]. rewrite IHn. replace (8 * S n)%nat with (8 + 8 * n)%nat by lia.
  rewrite <- skipn_skipn'. reflexivity.
Qed.
Lemma bits_of_lsb_skipn : forall n l, bits_of_lsb (skipn n l) = skipn (8 * n) (bits_of_lsb l).
Proof.
  induction n; intros l; [reflexivity|].
  destruct l; [cbn [skipn bits_of_lsb flat_map]; rewrite skipn_nil; reflexivity|].
  cbn [skipn]. rewrite IHn. replace (8 * S n)%nat with (8 + 8 * n)%nat by lia.
  rewrite <- skipn_skipn'. reflexivity.
Qed.
Lemma bits_of_firstn : forall n l, bits_of (firstn n l) = firstn (8 * n) (bits_of l).
Proof.
  induction n; intros l; [reflexivity|].
  destruct l; [cbn [firstn bits_of flat_map]; rewrite firstn_nil; reflexivity|].
  replace (8 * S n)%nat with (8 + 8 * n)%nat by lia.
  change (bits_of (firstn (S n) (z :: l))) with (byte_bits z ++ bits_of (firstn n l)).
  change (bits_of (z :: l)) with (byte_bits z ++ bits_of l).
  rewrite IHn. cbn [byte_bits map app Nat.add firstn]. reflexivity.
Qed.
Lemma bits_of_lsb_firstn : forall n l, bits_of_lsb (firstn n l) = firstn (8 * n) (bits_of_lsb l).
Proof.
  induction n; intros l; [reflexivity|].
  destruct l; [cbn [firstn bits_of_lsb flat_map]; rewrite firstn_nil; reflexivity|].
  replace (8 * S n)%nat with (8 + 8 * n)%nat by lia.
  change (bits_of_lsb (firstn (S n) (z :: l))) with (byte_bits_lsb z ++ bits_of_lsb (firstn n l)).
  change (bits_of_lsb (z :: l)) with (byte_bits_lsb z ++ bits_of_lsb l).
  rewrite IHn. cbn [byte_bits_lsb map app Nat.add firstn]. reflexivity.
Qed.

Lemma big_endian_value_range : forall l, bytes l ->
  0 <= big_endian_value l < 256 ^ Z.of_nat (length l).
Proof.
  induction 1 as [|b t Hb _ IH]; cbn [big_endian_value length]; [cbn; lia|].
  unfold byte in Hb. rewrite Nat2Z.inj_succ, Z.pow_succ_r by lia.
  set (p := 256 ^ Z.of_nat (length t)) in *. nia.
Qed.
Lemma little_endian_value_range : forall l, bytes l ->
  0 <= little_endian_value l < 256 ^ Z.of_nat (length l).
Proof.
  induction 1 as [|b t Hb _ IH]; cbn [little_endian_value length]; [cbn; lia|].
  unfold byte in Hb. rewrite Nat2Z.inj_succ, Z.pow_succ_r by lia. lia.
Qed.
Lemma pow256 : forall n : nat, 256 ^ Z.of_nat n = 2 ^ Z.of_nat (8 * n).
Proof. intros. rewrite Nat2Z.inj_mul. rewrite Z.pow_mul_r by lia. reflexivity. Qed.
Lemma number_bits_of : forall l, bytes l -> number (bits_of l) = big_endian_value l.
Proof.
  induction 1 as [|b t Hb Ht IH]; [reflexivity|].
  change (bits_of (b :: t)) with (byte_bits b ++ bits_of t).
  rewrite number_app, IH, bits_of_length, byte_bits_zbits, number_zbits. cbn [big_endian_value].
  rewrite pow256. f_equal. f_equal. unfold byte in Hb. apply Z.mod_small. cbn; lia.
Qed.
Lemma number_lsb_app : forall a b, number_lsb (a ++ b) = number_lsb a + 2 ^ Z.of_nat (length a) * number_lsb b.
Proof.
  induction a as [|x a IH]; intros b; cbn [number_lsb app length]; [change (2 ^ Z.of_nat 0) with 1; lia|].
  rewrite IH, pow2_S. lia.
Qed.
Lemma number_bits_of_lsb : forall l, bytes l -> number_lsb (bits_of_lsb l) = little_endian_value l.
Proof.
  induction 1 as [|b t Hb Ht IH]; [reflexivity|].
  change (bits_of_lsb (b :: t)) with (byte_bits_lsb b ++ bits_of_lsb t).
  rewrite number_lsb_app, IH, byte_bits_lsb_zlsb, number_lsb_zlsb, zlsb_length. cbn [little_endian_value].
  unfold byte in Hb. rewrite Z.mod_small by p2lia. reflexivity.
Qed.
Lemma bits_of_zbits : forall l, bytes l -> bits_of l = zbits (8 * length l) (big_endian_value l).
Proof.
  intros l H. rewrite <- number_bits_of by assumption. rewrite <- bits_of_length.
  symmetry. apply zbits_number.
Qed.
Lemma bits_of_lsb_zlsb : forall l, bytes l -> bits_of_lsb l = zlsb (8 * length l) (little_endian_value l).
Proof.
  intros l H. apply number_lsb_inj.
  - rewrite bits_of_lsb_length, zlsb_length. reflexivity.
  - rewrite number_bits_of_lsb, number_lsb_zlsb by assumption. symmetry. apply Z.mod_small.
    rewrite <- pow256. apply little_endian_value_range. assumption.
Qed.

(** The readers of the model compute positional values. *)
Ltac bytes_inv H :=
  repeat match type of H with
  | bytes (_ :: _) => let Hb := fresh "Hb" in apply Forall_cons_iff in H; destruct H as [Hb H]
  | Forall byte (_ :: _) => let Hb := fresh "Hb" in apply Forall_cons_iff in H; destruct H as [Hb H]
  end.

Ltac ends_values :=
  cbn [big_endian_value little_endian_value length];
  change (256 ^ Z.of_nat 3) with 16777216; change (256 ^ Z.of_nat 2) with 65536;
  change (256 ^ Z.of_nat 1) with 256; change (256 ^ Z.of_nat 0) with 1; p2lia.
Lemma be16_value : forall a b, byte a -> byte b -> be16 [a; b] = big_endian_value [a; b].
Proof.
  unfold byte; intros. unfold be16. rewrite lor_shiftl_add by p2lia. ends_values.
Qed.
Lemma le16_value : forall a b, byte a -> byte b -> le16 [a; b] = little_endian_value [a; b].
Proof.
  unfold byte; intros. unfold le16. rewrite lor_shiftl_add by p2lia. ends_values.
Qed.
Lemma be32_value : forall a b c d, byte a -> byte b -> byte c -> byte d ->
  be32 [a; b; c; d] = big_endian_value [a; b; c; d].
Proof.
  unfold byte; intros. unfold be32.
  rewrite (lor_shiftl_add c d 8) by p2lia.
  rewrite (lor_shiftl_add b _ 16) by p2lia.
  rewrite (lor_shiftl_add a _ 24) by p2lia. ends_values.
Qed.
Lemma le32_value : forall a b c d, byte a -> byte b -> byte c -> byte d ->
  le32 [a; b; c; d] = little_endian_value [a; b; c; d].
Proof.
  unfold byte; intros. unfold le32.
  rewrite (lor_shiftl_add b a 8) by p2lia.
  rewrite (lor_shiftl_add c _ 16) by p2lia.
  rewrite (lor_shiftl_add d _ 24) by p2lia. ends_values.
Qed.
Lemma length_2 : forall {A} (l : list A), length l = 2%nat -> exists a b, l = [a; b].
Proof. intros A [|a [|b [|]]] H; try discriminate; eauto. Qed.
Lemma length_4 : forall {A} (l : list A), length l = 4%nat -> exists a b c d, l = [a; b; c; d].
Proof. intros A [|a [|b [|c [|d [|]]]]] H; try discriminate; eauto 6. Qed.

Definition sub_list {A} (l : list A) (pos : Z) (n : nat) : list A := firstn n (skipn (Z.to_nat pos) l).
Lemma sub_list_length : forall {A} (l : list A) pos n, 0 <= pos -> pos + Z.of_nat n <= zlen l ->
  length (sub_list l pos n) = n.
Proof. intros. unfold sub_list, zlen in *. rewrite firstn_length, skipn_length. lia. Qed.
Lemma sub_list_bytes : forall l pos n, bytes l -> bytes (sub_list l pos n).
Proof. intros. apply Forall_firstn, Forall_skipn. assumption. Qed.

Lemma slice_sub : forall {A} (l : list A) pos (n : nat), 0 <= pos -> pos + Z.of_nat n <= zlen l ->
  slice l pos (pos + Z.of_nat n) = Ok (sub_list l pos n).
Proof.
  intros. rewrite slice_ok by lia. unfold sub_list. repeat f_equal. lia.
Qed.
Lemma BEu32_spec : forall buf pos, bytes buf -> 0 <= pos -> pos + 4 <= zlen buf ->
  BEu32 buf pos = Ok (big_endian_value (sub_list buf pos 4)).
Proof.
  intros buf pos Hb H0 H1. unfold BEu32. change 4 with (Z.of_nat 4).
  rewrite slice_sub by lia. cbn [bind].
  destruct (length_4 (sub_list buf pos 4)) as [a [b [c [d E]]]]; [apply sub_list_length; lia|].
  pose proof (sub_list_bytes buf pos 4 Hb) as HB. rewrite E in *. bytes_inv HB.
  rewrite be32_value by assumption. reflexivity.
Qed.
Lemma LEu32_spec : forall buf pos, bytes buf -> 0 <= pos -> pos + 4 <= zlen buf ->
  LEu32 buf pos = Ok (little_endian_value (sub_list buf pos 4)).
Proof.
  intros buf pos Hb H0 H1. unfold LEu32. change 4 with (Z.of_nat 4).
  rewrite slice_sub by lia. cbn [bind].
  destruct (length_4 (sub_list buf pos 4)) as [a [b [c [d E]]]]; [apply sub_list_length; lia|].
  pose proof (sub_list_bytes buf pos 4 Hb) as HB. rewrite E in *. bytes_inv HB.
  rewrite le32_value by assumption. reflexivity.
Qed.
Lemma BEu16_spec : forall buf pos, bytes buf -> 0 <= pos -> pos + 2 <= zlen buf ->
  BEu16 buf pos = Ok (big_endian_value (sub_list buf pos 2)).
Proof.
  intros buf pos Hb H0 H1. unfold BEu16. change 2 with (Z.of_nat 2).
  rewrite slice_sub by lia. cbn [bind].
  destruct (length_2 (sub_list buf pos 2)) as [a [b E]]; [apply sub_list_length; lia|].
  pose proof (sub_list_bytes buf pos 2 Hb) as HB. rewrite E in *. bytes_inv HB.
  rewrite be16_value by assumption. reflexivity.
Qed.
Lemma LEu16_spec : forall buf pos, bytes buf -> 0 <= pos -> pos + 2 <= zlen buf ->
  LEu16 buf pos = Ok (little_endian_value (sub_list buf pos 2)).
Proof.
  intros buf pos Hb H0 H1. unfold LEu16. change 2 with (Z.of_nat 2).
  rewrite slice_sub by lia. cbn [bind].
  destruct (length_2 (sub_list buf pos 2)) as [a [b E]]; [apply sub_list_length; lia|].
  pose proof (sub_list_bytes buf pos 2 Hb) as HB. rewrite E in *. bytes_inv HB.
  rewrite le16_value by assumption. reflexivity.
Qed.
Lemma BEu32_oob : forall buf pos, ~ (0 <= pos /\ pos + 4 <= zlen buf) -> BEu32 buf pos = Panic.
Proof. intros. unfold BEu32. rewrite slice_oob by lia. reflexivity. Qed.
Lemma LEu32_oob : forall buf pos, ~ (0 <= pos /\ pos + 4 <= zlen buf) -> LEu32 buf pos = Panic.
Proof. intros. unfold LEu32. rewrite slice_oob by lia. reflexivity. Qed.
Lemma BEu16_oob : forall buf pos, ~ (0 <= pos /\ pos + 2 <= zlen buf) -> BEu16 buf pos = Panic.
Proof. intros. unfold BEu16. rewrite slice_oob by lia. reflexivity. Qed.
Lemma LEu16_oob : forall buf pos, ~ (0 <= pos /\ pos + 2 <= zlen buf) -> LEu16 buf pos = Panic.
Proof. intros. unfold LEu16. rewrite slice_oob by lia. reflexivity. Qed.

Lemma swrap_spec : forall n v, 0 < n ->
  - 2 ^ (n - 1) <= swrap n v < 2 ^ (n - 1) /\ swrap n v mod 2 ^ n = v mod 2 ^ n.
Proof.
  intros n v Hn. unfold swrap.
  assert (E : 2 ^ n = 2 * 2 ^ (n - 1)).
  { replace n with (Z.succ (n - 1)) at 1 by lia. rewrite Z.pow_succ_r by lia. reflexivity. }
  pose proof (pow2_pos (n - 1) ltac:(lia)).
  pose proof (Z.mod_pos_bound (v + 2 ^ (n - 1)) (2 ^ n) ltac:(lia)). split; [lia|].
  rewrite <- Zminus_mod_idemp_l, Z.mod_mod, Zminus_mod_idemp_l by lia. f_equal. lia.
Qed.
Lemma swrap_small : forall n v, 0 < n -> - 2 ^ (n - 1) <= v < 2 ^ (n - 1) -> swrap n v = v.
Proof.
  intros n v Hn H. unfold swrap.
  assert (E : 2 ^ n = 2 * 2 ^ (n - 1)).
  { replace n with (Z.succ (n - 1)) at 1 by lia. rewrite Z.pow_succ_r by lia. reflexivity. }
  rewrite Z.mod_small by lia. lia.
Qed.

Theorem endian_read_value : forall (e : endian) buf pos, bytes buf -> 0 <= pos ->
  (pos + 2 <= Z.of_nat (length buf) ->
     ru16 e buf pos =
     Ok ((if e then big_endian_value else little_endian_value) (firstn 2 (skipn (Z.to_nat pos) buf)))) /\
  (pos + 4 <= Z.of_nat (length buf) ->
     ru32 e buf pos =
     Ok ((if e then big_endian_value else little_endian_value) (firstn 4 (skipn (Z.to_nat pos) buf)))).
Proof.
  intros e buf pos Hb Hp. split; intros H; destruct e; cbn [ru16 ru32].
  - apply BEu16_spec; assumption.
  - apply LEu16_spec; assumption.
  - apply BEu32_spec; assumption.
  - apply LEu32_spec; assumption.
Qed.
Theorem endian_read_signed : forall (e : endian) buf pos v, ri32 e buf pos = Ok v ->
  - 2 ^ 31 <= v < 2 ^ 31 /\ exists u, ru32 e buf pos = Ok u /\ (v - u) mod 2 ^ 32 = 0.
Proof.
  intros e buf pos v H. destruct e; cbn [ri32 ru32] in *;
    [unfold BEi32 in H|unfold LEi32 in H]; inv_bind H; injection H as <-;
    match goal with |- context [as_i32 ?x] => destruct (swrap_spec 32 x ltac:(lia)) as [S1 S2] end;
    (split; [exact S1|]); eexists; (split; [eassumption|]); unfold as_i32;
    rewrite Zminus_mod, S2, Z.sub_diag; reflexivity.
Qed.
Theorem endian_read_outside : forall (e : endian) buf pos v,
  (ru16 e buf pos = Ok v -> 0 <= pos /\ pos + 2 <= Z.of_nat (length buf)) /\
  (ru32 e buf pos = Ok v -> 0 <= pos /\ pos + 4 <= Z.of_nat (length buf)) /\
  (ri32 e buf pos = Ok v -> 0 <= pos /\ pos + 4 <= Z.of_nat (length buf)).
Proof.
  intros e buf pos v. split; [|split]; intros H; destruct e; cbn [ru16 ru32 ri32] in H;
    unfold BEi32, LEi32, BEu16, LEu16, BEu32, LEu32 in H;
    repeat match goal with E : bind _ _ = Ok _ |- _ => inv_bind E end;
    match goal with E : slice _ _ _ = Ok _ |- _ => apply slice_inv in E; unfold zlen in E; lia end.
Qed.
