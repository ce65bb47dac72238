(** Proofs about the Sony key stream. *)
From Coq Require Import String ZArith List Bool Lia ZifyBool ZifyNat.
From Verif Require Import Base Bytes Arw Spec_Bits Spec_Sensor P_Base P_Bits P_Huff2 P_Huff4.
Import ListNotations.
Local Open Scope Z_scope.
Ltac Zify.zify_post_hook ::= Z.div_mod_to_equations.

Definition word (v : Z) : Prop := 0 <= v < 2 ^ 32.

Lemma lxor_word : forall a b, word a -> word b -> word (Z.lxor a b).
Proof.
  intros a b [A0 A1] [B0 B1]. split.
  - apply Z.lxor_nonneg. tauto.
  - destruct (Z.eq_dec (Z.lxor a b) 0) as [->|N]; [lia|].
    assert (P : 0 < Z.lxor a b) by (assert (0 <= Z.lxor a b) by (apply Z.lxor_nonneg; tauto); lia).
    apply Z.log2_lt_pow2; [exact P|].
    eapply Z.le_lt_trans; [apply Z.log2_lxor; assumption|].
    apply Z.max_lub_lt.
    + destruct (Z.eq_dec a 0) as [->|Na]; [reflexivity|]. apply Z.log2_lt_pow2; lia.
    + destruct (Z.eq_dec b 0) as [->|Nb]; [reflexivity|]. apply Z.log2_lt_pow2; lia.
Qed.

Lemma shift_in_one : forall a b, word a -> word b -> shift_in a b = shift_one a b /\ word (shift_in a b).
Proof.
  intros a b Ha Hb. unfold shift_in, shift_one, as_u32. rewrite Z.shiftl_mul_pow2, Z.shiftr_div_pow2 by lia.
  change (2 ^ 1) with 2. rewrite (Z.mul_comm a 2).
  assert (E : (2 * a) mod 2 ^ 32 = ((2 * a) mod 2 ^ 32 / 2) * 2 ^ 1).
  { change (2 ^ 32) with 4294967296. change (2 ^ 1) with 2. lia. }
  assert (B : 0 <= b / 2 ^ 31 < 2 ^ 1).
  { unfold word in Hb. change (2 ^ 32) with 4294967296 in Hb. change (2 ^ 31) with 2147483648. change (2 ^ 1) with 2. lia. }
  assert (L : Z.lor ((2 * a) mod 2 ^ 32) (b / 2 ^ 31) = (2 * a) mod 2 ^ 32 + b / 2 ^ 31).
  { rewrite E at 1. rewrite lor_mul_add by lia. rewrite <- E. reflexivity. }
  rewrite L. split; [reflexivity|]. unfold word. change (2 ^ 1) with 2 in *.
  change (2 ^ 32) with 4294967296 in *. change (2 ^ 31) with 2147483648 in *. lia.
Qed.

Lemma swap32_opposite : forall v, word v -> opposite v (swap32 v) /\ word (swap32 v).
Proof.
  intros v Hv. unfold swap32.
  set (a := Z.land v 255). set (b := Z.land (Z.shiftr v 8) 255).
  set (c := Z.land (Z.shiftr v 16) 255). set (d := Z.land (Z.shiftr v 24) 255).
  assert (Ea : a = v mod 256) by (apply (land_ones_mod v 8); lia).
  assert (Eb : b = v / 256 mod 256) by (unfold b; rewrite (land_ones_mod _ 8), Z.shiftr_div_pow2 by lia; reflexivity).
  assert (Ec : c = v / 65536 mod 256) by (unfold c; rewrite (land_ones_mod _ 8), Z.shiftr_div_pow2 by lia; reflexivity).
  assert (Ed : d = v / 16777216 mod 256) by (unfold d; rewrite (land_ones_mod _ 8), Z.shiftr_div_pow2 by lia; reflexivity).
  rewrite !Z.shiftl_mul_pow2 by lia.
  unfold word in Hv. change (2 ^ 32) with 4294967296 in Hv.
  assert (R : 0 <= a < 256 /\ 0 <= b < 256 /\ 0 <= c < 256 /\ 0 <= d < 256) by lia.
  clearbody a b c d.
  assert (E : Z.lor (Z.lor (a * 2 ^ 24) (b * 2 ^ 16)) (Z.lor (c * 2 ^ 8) d) = a * 2 ^ 24 + b * 2 ^ 16 + c * 2 ^ 8 + d).
  { rewrite (lor_mul_add a (b * 2 ^ 16) 24) by lia. rewrite (lor_mul_add c d 8) by lia.
    replace (a * 2 ^ 24 + b * 2 ^ 16) with ((a * 2 ^ 8 + b) * 2 ^ 16) by lia.
    rewrite lor_mul_add by lia. lia. }
  rewrite E. split; [|unfold word; lia].
  exists [d; c; b; a]. split; [|split; [reflexivity|split]].
  - repeat constructor; lia.
  - cbn [big_endian_value length]. change (256 ^ Z.of_nat 3) with 16777216. change (256 ^ Z.of_nat 2) with 65536.
    change (256 ^ Z.of_nat 1) with 256. change (256 ^ Z.of_nat 0) with 1. lia.
  - cbn [little_endian_value]. lia.
Qed.

(** ** The pad *)

Definition mk (key : Z) (n : nat) : Z := Nat.iter n (fun m => (m * 48828125 + 1) mod 2 ^ 32) key.

Lemma mk_word : forall key n, word (mk key (S n)).
Proof. intros. unfold mk, word. cbn [Nat.iter nat_rect]. apply Z.mod_pos_bound. lia. Qed.

Lemma mk_step : forall x, as_u32 (as_u32 (x * 48828125) + 1) = (x * 48828125 + 1) mod 2 ^ 32.
Proof. intros. unfold as_u32. rewrite Zplus_mod_idemp_l. reflexivity. Qed.

Definition start_step (p : Z) (st : Z * list Z) : res (Z * list Z) :=
  let '(mkey, pad) := st in
  let mkey := as_u32 (as_u32 (mkey * 48828125) + 1) in
  pad <- upd pad p mkey ;; Ok (mkey, pad).
Lemma pad_start_eq : forall key pad, pad_start key pad = rfold start_step (zrange 0 4) (key, pad).
Proof. reflexivity. Qed.

Lemma pad_start_ok : forall key pad, zlen pad = 128 -> Forall word pad ->
  exists m pad', pad_start key pad = Ok (m, pad') /\ zlen pad' = 128 /\ Forall word pad' /\
    forall i : nat, (i < 4)%nat -> znth pad' (Z.of_nat i) = mk key (S i).
Proof.
  intros key pad L W. rewrite pad_start_eq.
  destruct (rfold_zrange start_step (fun p '(m, l) => m = mk key (Z.to_nat p) /\ zlen l = 128 /\ Forall word l /\
     forall i : nat, Z.of_nat i < p -> znth l (Z.of_nat i) = mk key (S i)) 0 4 (key, pad)) as [[m l] [E [_ [H2 [H3 H4]]]]].
  - lia.
  - split; [reflexivity|]. split; [exact L|]. split; [exact W|]. intros i Hi. lia.
  - intros p [m l] Hp [Hm [Hl [Hw Hi]]]. unfold start_step. rewrite mk_step.
    assert (Em : (m * 48828125 + 1) mod 2 ^ 32 = mk key (S (Z.to_nat p))) by (rewrite Hm; reflexivity).
    rewrite Em. destruct (upd_exists l p (mk key (S (Z.to_nat p))) ltac:(lia)) as [l' El]. rewrite El. cbn [bind].
    eexists. split; [reflexivity|]. cbv beta iota. replace (Z.to_nat (p + 1)) with (S (Z.to_nat p)) by lia.
    split; [reflexivity|]. split; [rewrite (zlen_upd _ _ _ _ El); exact Hl|].
    split; [exact (upd_Forall word _ _ _ _ El Hw (mk_word key _))|].
    intros i Hlt. rewrite (znth_upd _ _ _ _ _ El) by lia.
    destruct (Z.of_nat i =? p) eqn:Ep; [|apply Hi; lia]. f_equal. lia.
  - exists m, l. split; [exact E|]. split; [exact H2|]. split; [exact H3|]. intros i Hi. apply H4. lia.
Qed.

Definition mix_step (p : Z) (pad : list Z) : res (list Z) :=
  a <- get pad (p - 4) ;; b <- get pad (p - 2) ;;
  c <- get pad (p - 3) ;; d <- get pad (p - 1) ;;
  upd pad p (shift_in (Z.lxor a b) (Z.lxor c d)).
Definition swap_step (p : Z) (pad : list Z) : res (list Z) := v <- get pad p ;; upd pad p (swap32 v).

Lemma sony_pad_eq : forall key, sony_pad key =
  ('(_, pad) <- pad_start key (zeros 128) ;;
   p3 <- get pad 3 ;; p0 <- get pad 0 ;; p2 <- get pad 2 ;;
   pad <- upd pad 3 (shift_in p3 (Z.lxor p0 p2)) ;;
   pad <- rfold mix_step (zrange 4 127) pad ;;
   rfold swap_step (zrange 0 127) pad).
Proof. reflexivity. Qed.

Lemma znth_word : forall l i, Forall word l -> 0 <= i < zlen l -> word (znth l i).
Proof. intros. apply (znth_Forall word); assumption. Qed.

Lemma mix_ok : forall pad0, zlen pad0 = 128 -> Forall word pad0 ->
  exists pad, rfold mix_step (zrange 4 127) pad0 = Ok pad /\ zlen pad = 128 /\ Forall word pad /\
    (forall i, 0 <= i < 4 -> znth pad i = znth pad0 i) /\
    forall n, 0 <= n -> n + 4 < 127 ->
      znth pad (n + 4) = shift_one (Z.lxor (znth pad n) (znth pad (n + 2))) (Z.lxor (znth pad (n + 1)) (znth pad (n + 3))).
Proof.
  intros pad0 L W.
  destruct (rfold_zrange mix_step (fun p l => zlen l = 128 /\ Forall word l /\
     (forall i, 0 <= i < 4 -> znth l i = znth pad0 i) /\
     forall n, 0 <= n -> n + 4 < p ->
      znth l (n + 4) = shift_one (Z.lxor (znth l n) (znth l (n + 2))) (Z.lxor (znth l (n + 1)) (znth l (n + 3)))) 4 127 pad0)
    as [l [E [H1 [H2 [H3 H4]]]]].
  - lia.
  - split; [exact L|]. split; [exact W|]. split; [reflexivity|]. intros; lia.
  - intros p l Hp [Hl [Hw [H4 Hn]]]. unfold mix_step.
    rewrite !get_ok by lia. cbn [bind].
    destruct (shift_in_one (Z.lxor (znth l (p - 4)) (znth l (p - 2))) (Z.lxor (znth l (p - 3)) (znth l (p - 1)))) as [Es Ws];
      try (apply lxor_word; apply znth_word; try assumption; lia).
    destruct (upd_exists l p (shift_in (Z.lxor (znth l (p - 4)) (znth l (p - 2))) (Z.lxor (znth l (p - 3)) (znth l (p - 1)))) ltac:(lia)) as [l' El].
    exists l'. split; [exact El|]. split; [rewrite (zlen_upd _ _ _ _ El); exact Hl|].
    split; [exact (upd_Forall word _ _ _ _ El Hw Ws)|].
    assert (Old : forall i, 0 <= i -> i <> p -> znth l' i = znth l i).
    { intros i Hi Hip. rewrite (znth_upd _ _ _ _ _ El) by lia. replace (i =? p) with false by lia. reflexivity. }
    split; [intros i Hi; rewrite Old by lia; apply H4; lia|].
    intros n Hn0 Hn1. destruct (Z.eq_dec (n + 4) p) as [Ep|Np].
    + rewrite (znth_upd _ _ _ _ _ El) by lia. replace (n + 4 =? p) with true by lia.
      rewrite Es, !Old by lia. f_equal; f_equal; f_equal; lia.
    + rewrite !Old by lia. apply Hn; lia.
  - exists l. split; [exact E|]. split; [exact H1|]. split; [exact H2|]. split; [exact H3|exact H4].
Qed.

Lemma swap_ok : forall pad0, zlen pad0 = 128 -> Forall word pad0 ->
  exists pad, rfold swap_step (zrange 0 127) pad0 = Ok pad /\ zlen pad = 128 /\ Forall word pad /\
    forall n, 0 <= n < 127 -> znth pad n = swap32 (znth pad0 n).
Proof.
  intros pad0 L W.
  destruct (rfold_zrange swap_step (fun p l => zlen l = 128 /\ Forall word l /\
     forall n, 0 <= n < 128 -> znth l n = if n <? p then swap32 (znth pad0 n) else znth pad0 n) 0 127 pad0)
    as [l [E [H1 [H2 H3]]]].
  - lia.
  - split; [exact L|]. split; [exact W|]. intros n Hn. replace (n <? 0) with false by lia. reflexivity.
  - intros p l Hp [Hl [Hw Hn]]. unfold swap_step. rewrite get_ok by lia. cbn [bind].
    destruct (upd_exists l p (swap32 (znth l p)) ltac:(lia)) as [l' El]. exists l'. split; [exact El|].
    split; [rewrite (zlen_upd _ _ _ _ El); exact Hl|].
    split; [apply (upd_Forall word _ _ _ _ El Hw), swap32_opposite, znth_word; [exact Hw|lia]|].
    intros n Hn0. rewrite (znth_upd _ _ _ _ _ El) by lia. rewrite !Hn by lia.
    destruct (n =? p) eqn:Ep.
    + replace (n <? p + 1) with true by lia. replace (p <? p) with false by lia. f_equal. f_equal. lia.
    + destruct (n <? p) eqn:E1; [replace (n <? p + 1) with true by lia|replace (n <? p + 1) with false by lia]; reflexivity.
  - exists l. split; [exact E|]. split; [exact H1|]. split; [exact H2|]. intros n Hn. rewrite H3 by lia.
    replace (n <? 127) with true by lia. reflexivity.
Qed.

Lemma zeros_word : forall n, Forall word (zeros n).
Proof. intros. unfold zeros. apply Forall_forall. intros x H. apply repeat_spec in H. subst x. unfold word. lia. Qed.

Lemma zbyte : forall v, Z.land v 255 = v mod 256.
Proof. intros. apply (land_ones_mod v 8). lia. Qed.

(** The words before and after swapping, and the lagged sequence. *)
Definition grow (l : list Z) : list Z :=
  l ++ [Z.lxor (nth (length l - 127) l 0) (nth (length l - 63) l 0)].
Definition lagged (base : list Z) (n : nat) : Z := nth n (Nat.iter n grow base) 0.

Lemma grow_length : forall base n, length (Nat.iter n grow base) = (length base + n)%nat.
Proof.
  intros. induction n; cbn [Nat.iter nat_rect]; [lia|]. unfold grow at 1. rewrite app_length. cbn [length].
  unfold Nat.iter in *. rewrite IHn. lia.
Qed.
Lemma iter_S : forall base n, Nat.iter (S n) grow base = grow (Nat.iter n grow base).
Proof. reflexivity. Qed.
Lemma lagged_stable : forall base n m, (n < length base + m)%nat -> (m <= n)%nat ->
  lagged base n = nth n (Nat.iter m grow base) 0.
Proof.
  intros base n m H1 H2. unfold lagged.
  assert (G : forall k, nth n (Nat.iter (k + m) grow base) 0 = nth n (Nat.iter m grow base) 0).
  { induction k; [reflexivity|]. cbn [Nat.add]. rewrite iter_S. unfold grow at 1. rewrite app_nth1; [exact IHk|].
    rewrite grow_length. lia. }
  rewrite <- (G (n - m)%nat). f_equal. f_equal. lia.
Qed.
Lemma lagged_lag : forall base n, length base = 127%nat ->
  lagged base (n + 127) = Z.lxor (lagged base n) (lagged base (n + 64)).
Proof.
  intros base n L. rewrite (lagged_stable base (n + 127) (S n)) by lia. rewrite iter_S. unfold grow at 1.
  pose proof (grow_length base n) as G. rewrite app_nth2 by lia. rewrite G.
  replace (n + 127 - (length base + n))%nat with 0%nat by lia. cbn [nth].
  rewrite (lagged_stable base n n) by lia. rewrite (lagged_stable base (n + 64) n) by lia.
  f_equal; f_equal; lia.
Qed.
Lemma lagged_base : forall base n, (n < length base)%nat -> lagged base n = nth n base 0.
Proof. intros. rewrite (lagged_stable base n 0) by lia. reflexivity. Qed.

Lemma sony_pad_ok : forall key, exists pad s, sony_pad key = Ok pad /\ zlen pad = 128 /\ sony_sequence key s /\
  (forall n, word (s n)) /\ forall n, (n < 127)%nat -> znth pad (Z.of_nat n) = s n.
Proof.
  intros key. rewrite sony_pad_eq.
  destruct (pad_start_ok key (zeros 128)) as [m [p1 [E1 [L1 [W1 H1]]]]]; [reflexivity|apply zeros_word|].
  rewrite E1. cbn [bind]. rewrite !get_ok by lia. cbn [bind].
  destruct (shift_in_one (znth p1 3) (Z.lxor (znth p1 0) (znth p1 2))) as [Es Ws];
    [apply znth_word; [exact W1|lia]|apply lxor_word; apply znth_word; try assumption; lia|].
  destruct (upd_exists p1 3 (shift_in (znth p1 3) (Z.lxor (znth p1 0) (znth p1 2))) ltac:(lia)) as [p2 E2].
  rewrite E2. cbn [bind].
  assert (L2 : zlen p2 = 128) by (rewrite (zlen_upd _ _ _ _ E2); exact L1).
  assert (W2 : Forall word p2) by (exact (upd_Forall word _ _ _ _ E2 W1 Ws)).
  destruct (mix_ok p2 L2 W2) as [p3 [E3 [L3 [W3 [H3 R3]]]]]. rewrite E3. cbn [bind].
  destruct (swap_ok p3 L3 W3) as [p4 [E4 [L4 [W4 H4]]]].
  set (base := firstn 127 p4).
  assert (Lb : length base = 127%nat) by (unfold base; rewrite firstn_length; unfold zlen in L4; lia).
  assert (Hb : forall n, (n < 127)%nat -> lagged base n = znth p4 (Z.of_nat n)).
  { intros n Hn. rewrite lagged_base by lia. unfold base. rewrite nth_firstn' by lia. unfold znth. rewrite Nat2Z.id. reflexivity. }
  assert (V2 : forall i, 0 <= i -> znth p2 i = if i =? 3 then shift_one (mk key 4) (Z.lxor (mk key 1) (mk key 3)) else znth p1 i).
  { intros i Hi. rewrite (znth_upd _ _ _ _ _ E2) by lia. destruct (i =? 3) eqn:Ei; [|reflexivity].
    rewrite Es. pose proof (H1 0%nat ltac:(lia)). pose proof (H1 2%nat ltac:(lia)). pose proof (H1 3%nat ltac:(lia)).
    cbn [Z.of_nat Pos.of_succ_nat Pos.succ] in *. congruence. }
  exists p4, (lagged base). split; [exact E4|]. split; [exact L4|]. split; [|split].
  - constructor; [|intros n; apply lagged_lag; exact Lb].
    exists (mk key), (fun n => znth p3 (Z.of_nat n)).
    split; [reflexivity|]. split; [reflexivity|].
    assert (K : forall i : nat, (i < 4)%nat -> i <> 3%nat -> znth p3 (Z.of_nat i) = mk key (S i)).
    { intros i Hi Hi3. rewrite H3 by lia. rewrite V2 by lia. replace (Z.of_nat i =? 3) with false by lia. apply H1. lia. }
    assert (K3 : znth p3 3 = shift_one (mk key 4) (Z.lxor (mk key 1) (mk key 3))).
    { rewrite H3 by lia. rewrite V2 by lia. reflexivity. }
    split; [apply (K 0%nat); lia|]. split; [apply (K 1%nat); lia|]. split; [apply (K 2%nat); lia|].
    split; [rewrite (K 0%nat), (K 2%nat) by lia; exact K3|]. split.
    + intros n Hn. replace (Z.of_nat (n + 4)) with (Z.of_nat n + 4) by lia. rewrite R3 by lia.
      replace (Z.of_nat (n + 2)) with (Z.of_nat n + 2) by lia. replace (Z.of_nat (n + 1)) with (Z.of_nat n + 1) by lia.
      replace (Z.of_nat (n + 3)) with (Z.of_nat n + 3) by lia. reflexivity.
    + intros n Hn. rewrite Hb by lia. rewrite H4 by lia. apply swap32_opposite. apply znth_word; [exact W3|lia].
  - assert (P : forall N n, (n < N)%nat -> word (lagged base n)); [|intros n; apply (P (S n)); lia].
    induction N; intros n Hn; [lia|]. destruct (lt_dec n 127) as [Hl|Hl].
    + rewrite Hb by lia. apply znth_word; [exact W4|lia].
    + replace n with ((n - 127) + 127)%nat by lia. rewrite lagged_lag by exact Lb. apply lxor_word; apply IHN; lia.
  - intros n Hn. symmetry. apply Hb. exact Hn.
Qed.

(** ** Decryption *)
Lemma land_127 : forall p, Z.land p 127 = p mod 128.
Proof. intros. apply (land_ones_mod p 7). lia. Qed.

Definition le_bytes (v : Z) : list Z := [v mod 256; v / 256 mod 256; v / 65536 mod 256; v / 16777216 mod 256].
Lemma le_bytes_value : forall v, word v -> little_endian_value (le_bytes v) = v.
Proof. intros v H. unfold le_bytes, word in *. change (2 ^ 32) with 4294967296 in H. cbn [little_endian_value]. lia. Qed.
Lemma le_bytes_bytes : forall v, bytes (le_bytes v).
Proof. intros. unfold le_bytes. repeat constructor; unfold byte; lia. Qed.

(** Output so far: [i] words. *)
Definition cipher (buf : list Z) (offset : Z) (s : nat -> Z) (i : nat) : Z :=
  Z.lxor (word_at buf (offset + 4 * Z.of_nat i)) (s (i + 127)%nat).
Definition clear_text (buf : list Z) (offset : Z) (s : nat -> Z) (n : nat) : list Z :=
  flat_map (fun i => le_bytes (cipher buf offset s i)) (seq 0 n).

Lemma clear_length : forall buf offset s n, zlen (clear_text buf offset s n) = 4 * Z.of_nat n.
Proof.
  intros. unfold clear_text. induction n; [reflexivity|]. rewrite seq_S, flat_map_app, zlen_app, IHn.
  cbn [flat_map]. rewrite app_nil_r. unfold le_bytes. rewrite !zlen_cons, zlen_nil. lia.
Qed.
Lemma clear_bytes : forall buf offset s n, bytes (clear_text buf offset s n).
Proof.
  intros. unfold clear_text. apply Forall_flat_map. apply Forall_forall. intros i _. apply le_bytes_bytes.
Qed.

Definition pad_at (s : nat -> Z) (i : nat) (pad : list Z) : Prop :=
  zlen pad = 128 /\ forall n, (i <= n < i + 127)%nat -> znth pad (Z.of_nat n mod 128) = s n.

Lemma word_at_word : forall buf pos, bytes buf -> 0 <= pos -> pos + 4 <= zlen buf -> word (word_at buf pos).
Proof.
  intros buf pos B H0 H1. unfold word_at.
  assert (L : length (firstn 4 (skipn (Z.to_nat pos) buf)) = 4%nat).
  { rewrite firstn_length, skipn_length. unfold zlen in H1. lia. }
  assert (B' : bytes (firstn 4 (skipn (Z.to_nat pos) buf))) by (apply Forall_firstn, Forall_skipn; exact B).
  destruct (firstn 4 (skipn (Z.to_nat pos) buf)) as [|a [|b [|c [|d [|]]]]]; try discriminate.
  inversion B' as [|? ? Ha B1]; subst. inversion B1 as [|? ? Hb B2]; subst. inversion B2 as [|? ? Hc B3]; subst.
  inversion B3 as [|? ? Hd B4]; subst. unfold byte in *. unfold word. cbn [little_endian_value]. lia.
Qed.

Lemma decrypt_word_ok : forall buf offset key s (i : nat) pad, bytes buf -> 0 <= offset ->
  offset + 4 * Z.of_nat i + 4 <= zlen buf -> sony_sequence key s -> (forall n, word (s n)) -> pad_at s i pad ->
  exists pad', decrypt_word buf offset (Z.of_nat i) (pad, clear_text buf offset s i) =
     Ok (pad', clear_text buf offset s (S i)) /\ pad_at s (S i) pad'.
Proof.
  intros buf offset key s i pad B Ho Hl S W [L P]. unfold decrypt_word.
  rewrite !land_127. set (p := Z.of_nat i + 127).
  rewrite !get_ok by lia. cbn [bind].
  assert (Ea : znth pad ((p + 1) mod 128) = s i).
  { rewrite <- (P i) by lia. f_equal. unfold p. replace (Z.of_nat i + 127 + 1) with (Z.of_nat i + 1 * 128) by lia.
    rewrite Z_mod_plus_full. reflexivity. }
  assert (Eb : znth pad ((p + 1 + 64) mod 128) = s (i + 64)%nat).
  { rewrite <- (P (i + 64)%nat) by lia. f_equal. unfold p. replace (Z.of_nat i + 127 + 1 + 64) with (Z.of_nat (i + 64) + 1 * 128) by lia.
    rewrite Z_mod_plus_full. reflexivity. }
  rewrite Ea, Eb. rewrite <- (sony_lag _ _ S i).
  destruct (upd_exists pad (p mod 128) (s (i + 127)%nat) ltac:(lia)) as [pad' E]. rewrite E. cbn [bind].
  rewrite (Z.mul_comm (Z.of_nat i) 4). rewrite LEu32_spec by (try assumption; lia).
  change (little_endian_value (sub_list buf (offset + 4 * Z.of_nat i) 4)) with (word_at buf (offset + 4 * Z.of_nat i)).
  cbn [bind]. assert (L' : zlen pad' = 128) by (rewrite (zlen_upd _ _ _ _ E); exact L).
  rewrite get_ok by lia. cbn [bind]. rewrite (znth_upd _ _ _ _ _ E) by lia. rewrite Z.eqb_refl.
  exists pad'. split.
  - f_equal. f_equal. unfold clear_text. rewrite seq_S, flat_map_app. cbn [flat_map Nat.add]. rewrite app_nil_r.
    f_equal. rewrite !zbyte, !Z.shiftr_div_pow2 by lia. change (2 ^ 0) with 1. rewrite Z.div_1_r. reflexivity.
  - split; [exact L'|]. intros n Hn. rewrite (znth_upd _ _ _ _ _ E) by lia.
    destruct (Z.of_nat n mod 128 =? p mod 128) eqn:En.
    + f_equal. unfold p in En. lia.
    + apply P. split; [lia|]. destruct (Nat.eq_dec n (i + 127)) as [Hx|]; [|lia]. exfalso. subst n. unfold p in En. lia.
Qed.

Lemma rfold_decrypt_ok : forall buf offset key s (n : nat) pad, bytes buf -> 0 <= offset ->
  offset + 4 * Z.of_nat n <= zlen buf -> sony_sequence key s -> (forall k, word (s k)) -> pad_at s 0 pad ->
  exists pad', rfold (decrypt_word buf offset) (zrange 0 (Z.of_nat n)) (pad, []) = Ok (pad', clear_text buf offset s n).
Proof.
  intros buf offset key s n pad B Ho Hl S W P.
  destruct (rfold_zrange (decrypt_word buf offset) (fun i st => exists pad', st = (pad', clear_text buf offset s (Z.to_nat i)) /\ pad_at s (Z.to_nat i) pad')
    0 (Z.of_nat n) (pad, [])) as [st [E [pad' [-> _]]]].
  - lia.
  - exists pad. split; [reflexivity|exact P].
  - intros i st Hi [pad' [-> P']].
    destruct (decrypt_word_ok buf offset key s (Z.to_nat i) pad' B Ho ltac:(lia) S W P') as [pad2 [E2 P2]].
    rewrite Z2Nat.id in E2 by lia. eexists. split; [exact E2|]. exists pad2.
    replace (Z.to_nat (i + 1)) with (Datatypes.S (Z.to_nat i)) by lia. split; [reflexivity|exact P2].
  - exists pad'. rewrite E, Nat2Z.id. reflexivity.
Qed.

Lemma word_at_clear : forall buf offset s n i, (i < n)%nat -> word (cipher buf offset s i) ->
  word_at (clear_text buf offset s n) (4 * Z.of_nat i) = cipher buf offset s i.
Proof.
  intros buf offset s n i Hi W. unfold word_at.
  assert (E : clear_text buf offset s n = clear_text buf offset s i ++ le_bytes (cipher buf offset s i) ++
     flat_map (fun i => le_bytes (cipher buf offset s i)) (seq (S i) (n - S i))).
  { unfold clear_text. replace n with (i + S (n - S i))%nat at 1 by lia. rewrite seq_app, flat_map_app. reflexivity. }
  rewrite E. pose proof (clear_length buf offset s i) as L. unfold zlen in L.
  replace (Z.to_nat (4 * Z.of_nat i)) with (length (clear_text buf offset s i)) by lia.
  rewrite skipn_app, skipn_all, Nat.sub_diag. cbn [app skipn]. 
  change 4%nat with (length (le_bytes (cipher buf offset s i))).
  rewrite firstn_app, firstn_all, Nat.sub_diag. cbn [firstn]. rewrite app_nil_r. apply le_bytes_value. exact W.
Qed.

Theorem decrypt_spec : forall buf offset length key, bytes buf -> 0 <= offset -> 0 <= length ->
  offset + 4 * (length / 4 + 1) <= zlen buf ->
  exists s, sony_sequence key s /\ (forall n, word (s n)) /\
    sony_decrypt buf offset length key = Ok (clear_text buf offset s (Z.to_nat (length / 4 + 1))).
Proof.
  intros buf offset length key B Ho Hl Hb. destruct (sony_pad_ok key) as [pad [s [E [L [S [W H]]]]]].
  exists s. split; [exact S|]. split; [exact W|]. unfold sony_decrypt. rewrite E. cbn [bind].
  destruct (rfold_decrypt_ok buf offset key s (Z.to_nat (length / 4 + 1)) pad B Ho ltac:(lia) S W) as [pad' E'].
  - split; [exact L|]. intros n Hn. rewrite Z.mod_small by lia. apply H. lia.
  - rewrite Z2Nat.id in E' by lia. rewrite E'. reflexivity.
Qed.

(** The sequence is determined by the key. *)
Lemma opposite_fun : forall v u u', opposite v u -> opposite v u' -> u = u'.
Proof.
  intros v u u' [l [B [L [E1 E2]]]] [l' [B' [L' [E1' E2']]]].
  destruct l as [|a [|b [|c [|d [|]]]]]; try discriminate. destruct l' as [|a' [|b' [|c' [|d' [|]]]]]; try discriminate.
  inversion B as [|? ? Ha B1]; subst. inversion B1 as [|? ? Hb B2]; subst. inversion B2 as [|? ? Hc B3]; subst. inversion B3 as [|? ? Hd B4]; subst.
  inversion B' as [|? ? Ha' B1']; subst. inversion B1' as [|? ? Hb' B2']; subst. inversion B2' as [|? ? Hc' B3']; subst. inversion B3' as [|? ? Hd' B4']; subst.
  unfold byte in *. cbn [big_endian_value little_endian_value length] in *.
  change (256 ^ Z.of_nat 3) with 16777216 in *. change (256 ^ Z.of_nat 2) with 65536 in *.
  change (256 ^ Z.of_nat 1) with 256 in *. change (256 ^ Z.of_nat 0) with 1 in *. lia.
Qed.
Lemma sequence_unique : forall key s s', sony_sequence key s -> sony_sequence key s' -> forall n, s n = s' n.
Proof.
  intros key s s' [[m [w [M0 [MS [w0 [w1 [w2 [w3 [wr ws]]]]]]]]] lag] [[m' [w' [M0' [MS' [w0' [w1' [w2' [w3' [wr' ws']]]]]]]]] lag'].
  assert (Em : forall n, m n = m' n) by (induction n; [congruence|rewrite MS, MS', IHn; reflexivity]).
  assert (Ew : forall N n, (n < N)%nat -> (n < 127)%nat -> w n = w' n).
  { induction N; intros n Hn Hl; [lia|].
    destruct n as [|[|[|[|n]]]].
    - rewrite w0, w0'. apply Em.
    - rewrite w1, w1'. apply Em.
    - rewrite w2, w2'. apply Em.
    - rewrite w3, w3', Em, w0, w0', w2, w2', !Em. reflexivity.
    - replace (S (S (S (S n)))) with (n + 4)%nat in * by lia. rewrite wr, wr' by lia.
      rewrite (IHN n), (IHN (n + 2)%nat), (IHN (n + 1)%nat), (IHN (n + 3)%nat) by lia. reflexivity. }
  assert (Es : forall N n, (n < N)%nat -> s n = s' n); [|intros n; apply (Es (S n)); lia].
  induction N; intros n Hn; [lia|]. destruct (lt_dec n 127).
  - apply (opposite_fun (w n)); [apply ws; lia|]. rewrite (Ew (S n)) by lia. apply ws'. lia.
  - replace n with ((n - 127) + 127)%nat by lia. rewrite lag, lag'. rewrite (IHN (n - 127)%nat), (IHN (n - 127 + 64)%nat) by lia. reflexivity.
Qed.

Lemma rfold_last : forall {A S} (f : A -> S -> res S) xs x s r, rfold f (xs ++ [x]) s = Ok r -> exists s', f x s' = Ok r.
Proof.
  intros A S f xs x s r E. rewrite rfold_app in E. apply bind_inv in E. destruct E as [s' [_ E]]. cbn [rfold] in E.
  apply bind_inv in E. destruct E as [r' [E E2]]. exists s'. congruence.
Qed.
Lemma decrypt_word_needs : forall buf offset i st st', decrypt_word buf offset i st = Ok st' ->
  0 <= offset + i * 4 /\ offset + i * 4 + 4 <= zlen buf.
Proof.
  intros buf offset i [pad o] st' E. unfold decrypt_word in E.
  apply bind_inv in E. destruct E as [? [_ E]]. apply bind_inv in E. destruct E as [? [_ E]].
  apply bind_inv in E. destruct E as [? [_ E]]. apply bind_inv in E. destruct E as [w [E _]].
  destruct (Z_le_dec 0 (offset + i * 4)); [destruct (Z_le_dec (offset + i * 4 + 4) (zlen buf)); [tauto|]|];
    rewrite LEu32_oob in E by lia; discriminate.
Qed.
Lemma sony_decrypt_eq : forall buf offset len key, sony_decrypt buf offset len key =
  bind (sony_pad key) (fun pad =>
    '(_, out) <- rfold (decrypt_word buf offset) (zrange 0 (len / 4 + 1)) (pad, []) ;; Ok out).
Proof. reflexivity. Qed.
Lemma decrypt_inv : forall buf offset len key out, sony_decrypt buf offset len key = Ok out ->
  exists pad st, rfold (decrypt_word buf offset) (zrange 0 (len / 4 + 1)) (pad, []) = Ok st.
Proof.
  intros buf offset len key out E. rewrite sony_decrypt_eq in E. apply bind_inv in E. destruct E as [pad [_ E]]. apply bind_inv in E.
  destruct E as [st [E _]]. exists pad, st. exact E.
Qed.
Lemma decrypt_enough : forall buf offset len key out, 0 <= len ->
  sony_decrypt buf offset len key = Ok out -> offset + 4 * (len / 4 + 1) <= zlen buf.
Proof.
  intros buf offset len key out Hl E. apply decrypt_inv in E. destruct E as [pad [st E]].
  rewrite (zrange_snoc 0 (len / 4)) in E by lia. apply rfold_last in E. destruct E as [st' E].
  apply decrypt_word_needs in E. lia.
Qed.

Theorem decrypt_words : forall buf offset length key s out, bytes buf -> 0 <= offset -> 0 <= length ->
  sony_sequence key s -> sony_decrypt buf offset length key = Ok out ->
  bytes out /\ zlen out = 4 * (length / 4 + 1) /\
  forall i : nat, 4 * Z.of_nat i < zlen out ->
    word_at out (4 * Z.of_nat i) = Z.lxor (word_at buf (offset + 4 * Z.of_nat i)) (s (i + 127)%nat).
Proof.
  intros buf offset length key s out B Ho Hl S E. pose proof (decrypt_enough _ _ _ _ _ Hl E) as Hb.
  destruct (decrypt_spec buf offset length key B Ho Hl Hb) as [s' [S' [W' E']]].
  rewrite E' in E. apply Ok_inj in E. subst out. split; [apply clear_bytes|]. split; [rewrite clear_length; lia|].
  intros i Hi. rewrite clear_length in Hi. rewrite word_at_clear.
  - unfold cipher. rewrite (sequence_unique key s' s S' S). reflexivity.
  - lia.
  - apply lxor_word; [|apply W']. apply word_at_word; [exact B|lia|lia].
Qed.

Lemma sequence_exists : forall key, exists s, sony_sequence key s.
Proof. intros. destruct (sony_pad_ok key) as [pad [s [_ [_ [S _]]]]]. exists s. exact S. Qed.

(** Bytes are determined by their words. *)
Lemma words_bytes : forall n l, bytes l -> length l = (4 * n)%nat ->
  l = flat_map (fun i => le_bytes (word_at l (4 * Z.of_nat i))) (seq 0 n).
Proof.
  induction n; intros l B L.
  - destruct l; [reflexivity|discriminate].
  - destruct l as [|a [|b [|c [|d l]]]]; try (cbn [length] in L; lia).
    assert (B4 : byte a /\ byte b /\ byte c /\ byte d /\ bytes l).
    { inversion B as [|? ? Ha B1]; subst. inversion B1 as [|? ? Hb B2]; subst. inversion B2 as [|? ? Hc B3]; subst.
      inversion B3 as [|? ? Hd B4]; subst. auto. }
    destruct B4 as [Ba [Bb [Bc [Bd Bl]]]]. cbn [seq flat_map].
    assert (E0 : le_bytes (word_at (a :: b :: c :: d :: l) (4 * Z.of_nat 0)) = [a; b; c; d]).
    { unfold word_at. change (Z.to_nat (4 * Z.of_nat 0)) with 0%nat. cbn [skipn firstn little_endian_value].
      unfold byte in *. unfold le_bytes. f_equal; [lia|]. f_equal; [lia|]. f_equal; [lia|]. f_equal; lia. }
    rewrite E0. cbn [app]. do 4 f_equal. rewrite (IHn l Bl) at 1 by (cbn [length] in L; lia).
    rewrite <- (seq_shift n 0). rewrite !flat_map_concat_map, map_map. f_equal. apply map_ext. intros i.
    f_equal. unfold word_at. f_equal. f_equal. replace (Z.to_nat (4 * Z.of_nat (S i))) with (4 + Z.to_nat (4 * Z.of_nat i))%nat by lia.
    reflexivity.
Qed.

Lemma word_at_piece : forall buf offset n i, 0 <= offset -> (4 * i + 4 <= n)%nat ->
  word_at (firstn n (skipn (Z.to_nat offset) buf)) (4 * Z.of_nat i) = word_at buf (offset + 4 * Z.of_nat i).
Proof.
  intros buf offset n i Ho Hi. unfold word_at. rewrite skipn_firstn_comm, firstn_firstn, skipn_skipn'. f_equal.
  f_equal; [lia|]. f_equal. lia.
Qed.

Theorem decrypt_twice : forall buf offset length key out, bytes buf -> 0 <= offset -> 0 <= length ->
  sony_decrypt buf offset length key = Ok out ->
  sony_decrypt out 0 length key = Ok (firstn (Z.to_nat (4 * (length / 4 + 1))) (skipn (Z.to_nat offset) buf)).
Proof.
  intros buf offset length key out B Ho Hl E. pose proof (decrypt_enough _ _ _ _ _ Hl E) as Hb.
  destruct (sequence_exists key) as [s S]. destruct (decrypt_words _ _ _ _ _ _ B Ho Hl S E) as [Bo [Lo Wo]].
  destruct (decrypt_spec out 0 length key Bo ltac:(lia) Hl ltac:(lia)) as [s' [S' [_ E']]]. rewrite E'. f_equal.
  set (n := Z.to_nat (length / 4 + 1)). replace (Z.to_nat (4 * (length / 4 + 1))) with (4 * n)%nat by lia.
  assert (Lp : List.length (firstn (4 * n) (skipn (Z.to_nat offset) buf)) = (4 * n)%nat).
  { rewrite firstn_length, skipn_length. unfold zlen in Hb. lia. }
  rewrite (words_bytes n (firstn (4 * n) (skipn (Z.to_nat offset) buf))) by
    (try assumption; apply Forall_firstn, Forall_skipn; exact B).
  unfold clear_text. rewrite !flat_map_concat_map. f_equal. apply map_ext_in. intros i Hi. apply in_seq in Hi.
  f_equal. rewrite word_at_piece by lia. unfold cipher. rewrite Z.add_0_l. rewrite Wo by lia.
  rewrite (sequence_unique key s' s S' S). rewrite Z.lxor_assoc, Z.lxor_nilpotent, Z.lxor_0_r. reflexivity.
Qed.

Theorem decrypt_total : forall buf offset length key, bytes buf -> 0 <= offset -> 0 <= length ->
  offset + 4 * (length / 4 + 1) <= zlen buf -> exists out, sony_decrypt buf offset length key = Ok out.
Proof. intros buf offset length key B Ho Hl Hb. destruct (decrypt_spec _ _ _ key B Ho Hl Hb) as [s [_ [_ E]]]. eauto. Qed.
