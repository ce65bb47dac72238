(** Proofs about lossless JPEG: parsing the headers of a file. *)
From Coq Require Import String ZArith List Bool Lia ZifyBool ZifyNat.
From Verif Require Import Base Bytes Pumps ByteStream Threads Packed Huffman Ljpeg Spec_Bits Spec_Pump Spec_Stream Spec_Huffman Spec_Ljpeg
  P_Base P_Bits P_Pumps P_Huff4 P_Huff5 P_Huff6 P_Ljpeg1 P_Ljpeg2 P_Ljpeg3.
Import ListNotations.
Local Open Scope Z_scope.
Ltac Zify.zify_post_hook ::= Z.div_mod_to_equations.

(** The stream is at [pos] and [s] follows. *)
Definition At (buf : list Z) (pos : Z) (s : list Z) : Prop := exists pre, buf = pre ++ s /\ pos = zlen pre.

Lemma At_next : forall buf pos b s, At buf pos (b :: s) -> At buf (pos + 1) s.
Proof.
  intros buf pos b s [pre [E P]]. exists (pre ++ [b]). rewrite <- app_assoc. split; [exact E|].
  rewrite zlen_app, zlen_cons. change (zlen (@nil Z)) with 0. lia.
Qed.
Lemma At_u8 : forall buf pos b s, At buf pos (b :: s) -> bs_u8 buf pos = Ok (b, pos + 1).
Proof.
  intros buf pos b s [pre [E P]]. subst. unfold bs_u8, get. rewrite zlen_app, zlen_cons.
  pose proof (zlen_nonneg pre). pose proof (zlen_nonneg s).
  replace ((0 <=? zlen pre) && (zlen pre <? zlen pre + (1 + zlen s))) with true by lia.
  unfold zlen. rewrite Nat2Z.id, nth_error_app2 by lia. rewrite Nat.sub_diag. reflexivity.
Qed.
Lemma At_get : forall buf pos b s, At buf pos (b :: s) -> get buf pos = Ok b.
Proof.
  intros buf pos b s H. apply At_u8 in H. unfold bs_u8 in H. destruct (get buf pos); cbn in H; try discriminate. congruence.
Qed.
Lemma At_u16 : forall buf pos v s, 0 <= v < 65536 -> At buf pos (u16be v ++ s) ->
  bs_u16 BIG_ENDIAN buf pos = Ok (v, pos + 2) /\ At buf (pos + 2) s.
Proof.
  intros buf pos v s Hv H. unfold u16be in H. cbn [app] in H. split.
  - destruct H as [pre [E P]]. subst. unfold bs_u16, ru16, BIG_ENDIAN, BEu16.
    rewrite slice_ok by (rewrite ?zlen_app, ?zlen_cons; pose proof (zlen_nonneg pre); pose proof (zlen_nonneg s); lia).
    cbn [bind]. unfold zlen at 3. rewrite Nat2Z.id, skipn_app, skipn_all, Nat.sub_diag.
    replace (Z.to_nat (zlen pre + 2 - zlen pre)) with 2%nat by lia. cbn [app skipn firstn].
    rewrite be16_value by (unfold byte; lia). cbn [big_endian_value length]. change (Z.of_nat 1) with 1. change (Z.of_nat 0) with 0. do 2 f_equal. lia.
  - replace (pos + 2) with (pos + 1 + 1) by lia. apply At_next with (v mod 256). apply At_next with (v / 256). exact H.
Qed.
Lemma At_bound : forall buf pos s, At buf pos s -> 0 <= pos /\ pos + zlen s = zlen buf.
Proof. intros buf pos s [pre [E P]]. subst. rewrite zlen_app. pose proof (zlen_nonneg pre). lia. Qed.
Lemma At_marker : forall buf pos m s, m <> 0 -> m <> 255 -> At buf pos (255 :: m :: s) ->
  next_marker buf pos true = Ok (m, pos + 2) /\ next_marker buf pos false = Ok (m, pos + 2) /\ At buf (pos + 2) s.
Proof.
  intros buf pos m s H0 H1 H. pose proof (At_next _ _ _ _ H) as H'. pose proof (At_next _ _ _ _ H') as H''.
  replace (pos + 1 + 1) with (pos + 2) in H'' by lia. split; [|split; [|exact H'']].
  - unfold next_marker. cbn [negb]. unfold bs_skip_to_marker. cbn [bs_skip]. rewrite (At_get _ _ _ _ H). cbn [bind].
    change (255 =? 0xff) with true. cbn iota. rewrite (At_get _ _ _ _ H'). cbn [bind].
    replace (m =? 0) with false by lia. replace (m =? 0xff) with false by lia. cbn [negb andb bind].
    rewrite (At_u8 _ _ _ _ H'). do 2 f_equal. lia.
  - unfold next_marker. cbn [negb]. rewrite (At_u8 _ _ _ _ H). cbn [bind]. change (255 =? 0xff) with true. cbn [negb].
    rewrite (At_u8 _ _ _ _ H'). cbn [bind]. replace (m =? 0) with false by lia. replace (m =? 0xff) with false by lia. cbn [orb].
    do 2 f_equal. lia.
Qed.

(** ** Tables *)
Lemma upd_nat_app : forall {A} (a : list A) x b v, upd_nat (a ++ x :: b) (length a) v = a ++ v :: b.
Proof. induction a; intros; cbn; [reflexivity|]. f_equal. apply IHa. Qed.
Lemma upd_app : forall {A} (a : list A) x b v i, i = zlen a -> upd (a ++ x :: b) i v = Ok (a ++ v :: b).
Proof.
  intros. subst i. rewrite upd_ok by (rewrite zlen_app, zlen_cons; pose proof (zlen_nonneg a); pose proof (zlen_nonneg b); lia).
  unfold zlen. rewrite Nat2Z.id, upd_nat_app. reflexivity.
Qed.

(** Reading counts into an array, with their sum. *)
Lemma read_counts : forall buf l a b acc pos s, At buf pos (l ++ s) -> (length l <= length b)%nat ->
  rfold (fun i '(bits, acc, pos) =>
            '(v, pos) <- bs_u8 buf pos ;;
            bits <- upd bits (i + 1) v ;;
            Ok (bits, acc + v, pos)) (zrange (zlen a - 1) (zlen a - 1 + zlen l)) (a ++ b, acc, pos)
  = Ok (a ++ l ++ skipn (length l) b, acc + sum l, pos + zlen l) /\ At buf (pos + zlen l) s.
Proof.
  intros buf l. induction l as [|v l IH]; intros a b acc pos s H HL.
  - change (zlen (@nil Z)) with 0. rewrite zrange_empty by lia. change (sum []) with 0. rewrite !Z.add_0_r. split; [reflexivity|exact H].
  - destruct b as [|x b]; [cbn in HL; lia|]. rewrite zlen_cons. pose proof (zlen_nonneg l). rewrite zrange_cons by lia. cbn [rfold].
    cbn [app] in H. rewrite (At_u8 _ _ _ _ H). cbn [bind]. rewrite (upd_app a x b v) by lia. cbn [bind].
    apply At_next in H. change (v :: b) with ([v] ++ b). rewrite app_assoc.
    destruct (IH (a ++ [v]) b (acc + v) (pos + 1) s H ltac:(cbn in HL; lia)) as [E1 E2].
    rewrite zlen_app in E1. change (zlen [v]) with 1 in E1.
    replace (zlen a - 1 + 1) with (zlen a + 1 - 1) by lia. replace (zlen a - 1 + (1 + zlen l)) with (zlen a + 1 - 1 + zlen l) by lia.
    rewrite E1. replace (pos + (1 + zlen l)) with (pos + 1 + zlen l) by lia. split; [|exact E2].
    cbn [length skipn]. rewrite <- app_assoc. cbn [app sum fold_right]. fold (sum l). do 3 f_equal. lia.
Qed.
Lemma read_values : forall buf l a b pos s, At buf pos (l ++ s) -> (length l <= length b)%nat ->
  rfold (fun i '(vals, pos) =>
              '(v, pos) <- bs_u8 buf pos ;;
              vals <- upd vals i v ;;
              Ok (vals, pos)) (zrange (zlen a) (zlen a + zlen l)) (a ++ b, pos)
  = Ok (a ++ l ++ skipn (length l) b, pos + zlen l) /\ At buf (pos + zlen l) s.
Proof.
  intros buf l. induction l as [|v l IH]; intros a b pos s H HL.
  - change (zlen (@nil Z)) with 0. rewrite zrange_empty by lia. rewrite !Z.add_0_r. split; [reflexivity|exact H].
  - destruct b as [|x b]; [cbn in HL; lia|]. rewrite zlen_cons. pose proof (zlen_nonneg l). rewrite zrange_cons by lia. cbn [rfold].
    cbn [app] in H. rewrite (At_u8 _ _ _ _ H). cbn [bind]. rewrite (upd_app a x b v) by lia. cbn [bind].
    apply At_next in H. change (v :: b) with ([v] ++ b). rewrite app_assoc.
    destruct (IH (a ++ [v]) b (pos + 1) s H ltac:(cbn in HL; lia)) as [E1 E2].
    rewrite zlen_app in E1. change (zlen [v]) with 1 in E1. replace (zlen a + (1 + zlen l)) with (zlen a + 1 + zlen l) by lia.
    rewrite E1. replace (pos + (1 + zlen l)) with (pos + 1 + zlen l) by lia. split; [|exact E2].
    cbn [length skipn]. rewrite <- app_assoc. reflexivity.
Qed.

Lemma lengths_from_length : forall counts l, Forall (fun c => 0 <= c) counts -> Z.of_nat (length (lengths_from l counts)) = sum counts.
Proof.
  induction counts as [|c counts IH]; intros l H; [reflexivity|]. inversion H; subst. cbn [lengths_from sum fold_right]. fold (sum counts).
  rewrite app_length, repeat_length, Nat2Z.inj_add, (IH (S l)) by assumption. lia.
Qed.

(** The arrays after reading some tables. *)
Definition bits_arr (hs : list hcode) : list (list Z) := map (fun h => 0 :: hc_counts h) hs ++ repeat (zeros 17) (4 - length hs).
Definition vals_arr (hs : list hcode) : list (list Z) := map (fun h => padded (hc_syms h)) hs ++ repeat (zeros 256) (4 - length hs).
Definition init_arr (hs : list hcode) : list bool := repeat true (length hs) ++ repeat false (4 - length hs).
Definition read_tables (hs : list hcode) : dhts := mkdhts (init_arr hs) (bits_arr hs) (vals_arr hs).

Lemma get_app : forall {A} (a : list A) x b i, i = zlen a -> get (a ++ x :: b) i = Ok x.
Proof.
  intros. subst. unfold get. rewrite zlen_app, zlen_cons. pose proof (zlen_nonneg a). pose proof (zlen_nonneg b).
  replace ((0 <=? zlen a) && (zlen a <? zlen a + (1 + zlen b))) with true by lia.
  unfold zlen. rewrite Nat2Z.id, nth_error_app2, Nat.sub_diag by lia. reflexivity.
Qed.

Lemma parse_tables_ok : forall {M : Mode} hs done fuel buf pos len s, Forall (good_code debug 0) hs ->
  (length done + length hs <= 4)%nat -> (length hs < fuel)%nat ->
  let body := concat (map (fun '(i, h) => dht_table (Z.of_nat i) h) (combine (seq (length done) (length hs)) hs)) in
  len = zlen body -> At buf pos (body ++ s) ->
  parse_tables fuel buf (read_tables done) len pos = Ok (read_tables (done ++ hs), pos + len) /\ At buf (pos + len) s.
Proof.
  intros M hs. induction hs as [|h hs IH]; intros done fuel buf pos len s HG H4 HF body HL HA.
  - destruct fuel; [cbn in HF; lia|]. cbn in body. subst body. change (zlen (@nil Z)) with 0 in HL. subst len. cbn [parse_tables].
    rewrite app_nil_r, Z.add_0_r. split; [reflexivity|exact HA].
  - destruct fuel as [|fuel]; [cbn in HF; lia|].
    destruct (Forall_inv HG) as [[C16 [Cpos [C256 _]]] [[Sl Sb] _]]. pose proof (Forall_inv_tail HG) as HG'.
    cbn [length] in *. subst body. cbn [seq combine map concat] in *.
    set (tl := concat (map (fun '(i, h) => dht_table (Z.of_nat i) h) (combine (seq (S (length done)) (length hs)) hs))) in *.
    assert (Esum : sum (hc_counts h) = zlen (hc_syms h)).
    { unfold zlen. rewrite Sl. symmetry. apply lengths_from_length. exact Cpos. }
    assert (C : zlen (hc_counts h) = 16) by (unfold zlen; lia).
    assert (EL : len = 17 + zlen (hc_syms h) + zlen tl).
    { rewrite HL. unfold dht_table. rewrite zlen_app, zlen_cons, zlen_app. lia. }
    pose proof (zlen_nonneg (hc_syms h)) as NS. pose proof (zlen_nonneg tl) as NT.
    assert (S256 : zlen (hc_syms h) <= 256) by (unfold zlen; lia).
    rewrite <- app_assoc in HA. unfold dht_table in HA. cbn [app] in HA. rewrite <- app_assoc in HA.
    assert (D3 : 0 <= Z.of_nat (length done) <= 3) by lia.
    cbn [parse_tables]. replace (len <=? 0) with false by lia. rewrite (At_u8 _ _ _ _ HA). cbn [bind]. apply At_next in HA.
    assert (Esh : Z.shiftr (Z.of_nat (length done)) 4 = 0) by (rewrite Z.shiftr_div_pow2 by lia; change (2 ^ 4) with 16; lia).
    assert (Eld : Z.land (Z.of_nat (length done)) 0xf = Z.of_nat (length done)).
    { change 0xf with (2 ^ 4 - 1). rewrite land_ones_mod by lia. change (2 ^ 4) with 16. lia. }
    rewrite Esh, Eld. change (negb (0 =? 0)) with false. cbn iota. replace (3 <? Z.of_nat (length done)) with false by lia.
    assert (R4 : forall A (x : A), repeat x (4 - length done) = x :: repeat x (4 - length (done ++ [h]))).
    { intros A x. rewrite app_length. cbn [length]. replace (4 - length done)%nat with (S (4 - (length done + 1))) by lia. reflexivity. }
    cbn [d_bits read_tables]. unfold bits_arr at 1. rewrite R4. rewrite get_app by (rewrite zlen_map; reflexivity). cbn [bind].
    destruct (read_counts buf (hc_counts h) [0] (zeros 16) 0 (pos + 1) (hc_syms h ++ tl ++ s) HA) as [E1 A1].
    { change (length (zeros 16)) with 16%nat. lia. }
    change (zlen [0] - 1) with 0 in E1. rewrite Z.add_0_l, C in E1. change ([0] ++ zeros 16) with (zeros 17) in E1.
    rewrite E1. cbn [bind]. rewrite C16. change (skipn 16 (zeros 16)) with (@nil Z). rewrite app_nil_r.
    change (upd ([0] ++ hc_counts h) 0 0) with (upd ([] ++ 0 :: hc_counts h) 0 0). rewrite (upd_app [] 0 (hc_counts h) 0) by reflexivity. cbn [bind app].
    unfold bits_arr at 1. rewrite R4. rewrite upd_app by (rewrite zlen_map; reflexivity). cbn [bind].
    rewrite Z.add_0_l, Esum. replace (256 <? zlen (hc_syms h)) with false by lia. replace (len <? 1 + 16 + zlen (hc_syms h)) with false by lia.
    cbn [d_vals read_tables]. unfold vals_arr at 1. rewrite R4. rewrite get_app by (rewrite zlen_map; reflexivity). cbn [bind].
    rewrite C in A1. destruct (read_values buf (hc_syms h) [] (zeros 256) (pos + 1 + 16) (tl ++ s) A1) as [E2 A2].
    { change (length (zeros 256)) with 256%nat. lia. }
    change (zlen (@nil Z)) with 0 in E2. rewrite Z.add_0_l in E2. cbn [app] in E2. rewrite ?C. rewrite E2. cbn [bind].
    assert (Epad : hc_syms h ++ skipn (length (hc_syms h)) (zeros 256) = padded (hc_syms h)).
    { unfold padded, zeros. f_equal. change (Z.to_nat 256) with 256%nat. unfold zlen in S256.
      replace 256%nat with (length (hc_syms h) + (256 - length (hc_syms h)))%nat at 1 by lia.
      rewrite repeat_app. rewrite skipn_app, repeat_length, Nat.sub_diag, skipn_all2 by (rewrite repeat_length; lia). reflexivity. }
    rewrite Epad. unfold vals_arr at 1. rewrite R4. rewrite upd_app by (rewrite zlen_map; reflexivity). cbn [bind].
    cbn [d_init read_tables]. unfold init_arr at 1. rewrite R4. rewrite upd_app by (rewrite zlen_repeat; reflexivity). cbn [bind].
    assert (Eread : mkdhts (repeat true (length done) ++ true :: repeat false (4 - length (done ++ [h])))
       (map (fun h => 0 :: hc_counts h) done ++ (0 :: hc_counts h) :: repeat (zeros 17) (4 - length (done ++ [h])))
       (map (fun h => padded (hc_syms h)) done ++ padded (hc_syms h) :: repeat (zeros 256) (4 - length (done ++ [h])))
       = read_tables (done ++ [h])).
    { unfold read_tables, init_arr, bits_arr, vals_arr. rewrite !map_app. rewrite (app_length done [h]). cbn [length map].
      rewrite repeat_app, <- !app_assoc. reflexivity. }
    rewrite Eread.
    destruct (IH (done ++ [h]) fuel buf (pos + 1 + 16 + zlen (hc_syms h)) (len - (1 + 16 + zlen (hc_syms h))) s) as [E3 A3].
    + exact HG'.
    + rewrite app_length. cbn [length]. lia.
    + lia.
    + rewrite app_length. cbn [length]. replace (length done + 1)%nat with (S (length done)) by lia. fold tl. lia.
    + rewrite app_length. cbn [length]. replace (length done + 1)%nat with (S (length done)) by lia. exact A2.
    + rewrite E3. rewrite <- app_assoc. cbn [app].
      replace (pos + 1 + 16 + zlen (hc_syms h) + (len - (1 + 16 + zlen (hc_syms h)))) with (pos + len) in * by lia.
      split; [reflexivity|exact A3].
Qed.
