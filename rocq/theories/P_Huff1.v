(** Proofs about Huffman tables: sizes, codes, pointers. *)
From Coq Require Import String ZArith List Bool Lia ZifyBool ZifyNat.
From Verif Require Import Base Pumps Huffman Spec_Bits Spec_Huffman P_Base P_Bits.
Import ListNotations.
Local Open Scope Z_scope.
Ltac Zify.zify_post_hook ::= Z.div_mod_to_equations.

Lemma binary_zbits : forall n v, binary n v = zbits n v.
Proof. reflexivity. Qed.

(** Writing the next entry of a zero-filled array. *)
Lemma upd_end : forall (l : list Z) m x, (0 < m)%nat ->
  upd (l ++ repeat 0 m) (zlen l) x = Ok ((l ++ [x]) ++ repeat 0 (m - 1)).
Proof.
  intros l m x Hm. rewrite upd_ok by (rewrite zlen_app, zlen_repeat; pose proof (zlen_nonneg l); lia).
  f_equal. unfold zlen. rewrite Nat2Z.id. destruct m; [lia|].
  replace (S m - 1)%nat with m by lia. rewrite <- app_assoc.
  induction l as [|y l IH]; [reflexivity|]. cbn [app length upd_nat]. rewrite IH. reflexivity.
Qed.
Lemma get_app_l : forall (a b : list Z) i, 0 <= i < zlen a -> get (a ++ b) i = get a i.
Proof. intros. rewrite !get_ok by (rewrite ?zlen_app; pose proof (zlen_nonneg b); lia). rewrite znth_app_l by lia. reflexivity. Qed.
Lemma get_app_r : forall (a b : list Z) i, zlen a <= i -> get (a ++ b) i = get b (i - zlen a).
Proof.
  intros a b i H. pose proof (zlen_nonneg a). destruct (Z_lt_ge_dec i (zlen a + zlen b)).
  - rewrite !get_ok by (rewrite ?zlen_app; lia). rewrite znth_app_r by lia. reflexivity.
  - rewrite !get_oob by (rewrite ?zlen_app; lia). reflexivity.
Qed.
Lemma znth_repeat : forall x n i, 0 <= i < Z.of_nat n -> znth (repeat x n) i = x.
Proof.
  intros x n i H. unfold znth. apply (repeat_spec n x). apply nth_In. rewrite repeat_length. lia.
Qed.
Lemma get_repeat : forall (x : Z) n i, 0 <= i < Z.of_nat n -> get (repeat x n) i = Ok x.
Proof. intros. rewrite get_ok by (rewrite zlen_repeat; lia). rewrite znth_repeat by lia. reflexivity. Qed.

(** Sum of codes *)
Section Table.
Variable bits : list Z.
Hypothesis Hlen : zlen bits = 17.
Hypothesis Hpos : Forall (fun c => 0 <= c) bits.

Definition cn (n : nat) : Z := znth bits (Z.of_nat n).
(** Codes of at most [n] bits; one past the last code of [n] bits. *)
Fixpoint Fn (n : nat) : Z := match n with O => 0 | S m => Fn m + cn (S m) end.
Fixpoint En (n : nat) : Z := match n with O => 0 | S m => 2 * En m + cn (S m) end.
Fixpoint lens (n : nat) : list nat :=
  match n with O => [] | S m => lens m ++ repeat (S m) (Z.to_nat (cn (S m))) end.
Fixpoint codes (n : nat) : list Z :=
  match n with O => [] | S m => codes m ++ zrange (2 * En m) (En (S m)) end.

Lemma cn_pos : forall n, 0 <= cn n.
Proof.
  intros n. unfold cn. destruct (Z_lt_ge_dec (Z.of_nat n) (zlen bits)).
  - apply (znth_Forall (fun c => 0 <= c)); [assumption|lia].
  - rewrite znth_overflow by lia. lia.
Qed.
Lemma Fn_pos : forall n, 0 <= Fn n.
Proof. induction n; cbn [Fn]; [lia|]. pose proof (cn_pos (S n)). lia. Qed.
Lemma En_pos : forall n, 0 <= En n.
Proof. induction n; cbn [En]; [lia|]. pose proof (cn_pos (S n)). lia. Qed.
Lemma Fn_mono : forall n m, (n <= m)%nat -> Fn n <= Fn m.
Proof.
  intros n m H. induction H; [lia|]. cbn [Fn]. pose proof (cn_pos (S m)). lia.
Qed.
Lemma En_mono : forall n m, (n <= m)%nat -> 2 ^ Z.of_nat (m - n) * En n <= En m.
Proof.
  intros n m H. induction H.
  - rewrite Nat.sub_diag. change (2 ^ Z.of_nat 0) with 1. lia.
  - replace (S m - n)%nat with (S (m - n)) by lia. rewrite pow2_S. cbn [En]. pose proof (cn_pos (S m)). lia.
Qed.
Lemma En_strict : forall n m, (n <= m)%nat -> Fn n < Fn m -> 2 ^ Z.of_nat (m - n) * En n < En m.
Proof.
  intros n m H. induction H; intros HF; [lia|].
  replace (S m - n)%nat with (S (m - n)) by lia. rewrite pow2_S. cbn [En Fn] in *.
  pose proof (En_mono n m H). pose proof (cn_pos (S m)).
  destruct (Z_lt_ge_dec (Fn n) (Fn m)) as [L|L]; [specialize (IHle L)|]; lia.
Qed.
Lemma lens_length : forall n, Z.of_nat (length (lens n)) = Fn n.
Proof.
  induction n; [reflexivity|]. cbn [lens Fn]. rewrite app_length, repeat_length. pose proof (cn_pos (S n)). lia.
Qed.
Lemma codes_length : forall n, zlen (codes n) = Fn n.
Proof.
  induction n; [reflexivity|]. cbn [codes Fn]. rewrite zlen_app, IHn. unfold zlen at 1. rewrite zrange_length.
  cbn [En]. pose proof (cn_pos (S n)). lia.
Qed.

(** Kraft *)
Hypothesis Hkraft : En 16 <= 2 ^ 16.
Lemma En_bound : forall n, (n <= 16)%nat -> En n <= 2 ^ Z.of_nat n.
Proof.
  intros n H. pose proof (En_mono n 16 H).
  assert (2 ^ 16 = 2 ^ Z.of_nat (16 - n) * 2 ^ Z.of_nat n) by (rewrite <- pow2_add; f_equal; lia).
  pose proof (pow2_pos_nat (16 - n)). nia.
Qed.
Lemma En_bound_strict : forall n, (n <= 16)%nat -> Fn n < Fn 16 -> En n < 2 ^ Z.of_nat n.
Proof.
  intros n H HF. pose proof (En_strict n 16 H HF).
  assert (2 ^ 16 = 2 ^ Z.of_nat (16 - n) * 2 ^ Z.of_nat n) by (rewrite <- pow2_add; f_equal; lia).
  pose proof (pow2_pos_nat (16 - n)). nia.
Qed.

(** ** Figure C.1 *)
Hypothesis Hcount : Fn 16 <= 256.
Definition zl (n : nat) : list Z := map Z.of_nat (lens n).
Lemma zl_length : forall n, zlen (zl n) = Fn n.
Proof. intros. unfold zl. rewrite zlen_map. unfold zlen. apply lens_length. Qed.
Lemma map_repeat' : forall (x : nat) n, map Z.of_nat (repeat x n) = repeat (Z.of_nat x) n.
Proof. induction n; cbn [repeat map]; [reflexivity|]. rewrite IHn. reflexivity. Qed.

Lemma sizes_run : forall (b : nat) a pre l, zlen pre + Z.of_nat b <= 256 ->
  rfold (fun _ '(hs, p) =>
      hs' <- upd hs p l ;;
      if 256 <? p + 1 then Err too_long else Ok (hs', p + 1))
    (zrange a (a + Z.of_nat b)) (pre ++ repeat 0 (257 - length pre), zlen pre)
  = Ok ((pre ++ repeat l b) ++ repeat 0 (257 - length (pre ++ repeat l b)), zlen (pre ++ repeat l b)).
Proof.
  induction b; intros a pre l H.
  - rewrite zrange_empty by lia. cbn [repeat rfold]. rewrite app_nil_r. reflexivity.
  - rewrite zrange_cons by lia. cbn [rfold].
    rewrite upd_end by (unfold zlen in H; lia). cbn [bind].
    replace (256 <? zlen pre + 1) with false by lia. cbn [bind].
    replace (a + Z.of_nat (S b)) with ((a + 1) + Z.of_nat b) by lia.
    replace (257 - length pre - 1)%nat with (257 - length (pre ++ [l]))%nat by (rewrite app_length; cbn [length]; lia).
    replace (zlen pre + 1) with (zlen (pre ++ [l])) by (rewrite zlen_app; reflexivity).
    rewrite IHb by (rewrite zlen_app; change (zlen [l]) with 1; lia).
    rewrite <- !app_assoc. reflexivity.
Qed.
Lemma huff_sizes_ok : huff_sizes bits = Ok (zl 16 ++ repeat 0 (257 - length (zl 16)), Fn 16).
Proof.
  unfold huff_sizes.
  assert (G : forall n, (n <= 16)%nat -> rfold (fun l st =>
    b <- get bits l ;;
    rfold (fun _ '(hs, p) =>
      hs' <- upd hs p l ;;
      if 256 <? p + 1 then Err too_long else Ok (hs', p + 1))
    (zrange 1 (b + 1)) st)
    (zrange 1 (1 + Z.of_nat n)) (zeros 257, 0) = Ok (zl n ++ repeat 0 (257 - length (zl n)), zlen (zl n))).
  { induction n; intros Hn; [reflexivity|].
    replace (1 + Z.of_nat (S n)) with ((1 + Z.of_nat n) + 1) by lia.
    rewrite zrange_snoc by lia. rewrite rfold_app, IHn by lia. cbn [bind rfold].
    rewrite get_ok by lia. cbn [bind].
    replace (1 + Z.of_nat n) with (Z.of_nat (S n)) by lia. fold (cn (S n)).
    pose proof (cn_pos (S n)).
    pose proof (Fn_mono (S n) 16 Hn) as Hm. change (Fn (S n)) with (Fn n + cn (S n)) in Hm.
    replace (cn (S n) + 1) with (1 + Z.of_nat (Z.to_nat (cn (S n)))) by lia.
    rewrite sizes_run by (rewrite zl_length; lia). cbn [bind].
    unfold zl. cbn [lens]. rewrite map_app, map_repeat'. reflexivity. }
  specialize (G 16%nat (le_n _)). change (1 + Z.of_nat 16) with 17 in G. rewrite G, zl_length. reflexivity.
Qed.

(** ** Figure C.2 *)

Definition hs := zl 16 ++ repeat 0 (257 - length (zl 16)).
Lemma lens_split : forall n m, (n <= m)%nat -> exists r, lens m = lens n ++ r /\ Forall (fun l => (n < l <= m)%nat) r.
Proof.
  intros n m H. induction H.
  - exists []. rewrite app_nil_r. split; [reflexivity|constructor].
  - destruct IHle as [r [E FA]]. exists (r ++ repeat (S m) (Z.to_nat (cn (S m)))). cbn [lens]. rewrite E, app_assoc.
    split; [reflexivity|]. apply Forall_app. split.
    + eapply Forall_impl; [|exact FA]. cbn. lia.
    + apply Forall_forall. intros x Hx. apply repeat_spec in Hx. subst. lia.
Qed.
Lemma zlen_hs : zlen hs = 257.
Proof. unfold hs. rewrite zlen_app, zlen_repeat. pose proof (zl_length 16). pose proof (Fn_pos 16). unfold zlen in *. lia. Qed.
(** Size number [Fn n + i] is [n+1] for [i < cn (n+1)]. *)
Lemma hs_get_class : forall n i, (n < 16)%nat -> 0 <= i < cn (S n) -> get hs (Fn n + i) = Ok (Z.of_nat (S n)).
Proof.
  intros n i Hn Hi. unfold hs, zl. destruct (lens_split (S n) 16 Hn) as [r [E _]].
  rewrite E. cbn [lens]. rewrite !map_app, map_repeat', <- !app_assoc.
  pose proof (zl_length n) as L. unfold zl in L. pose proof (Fn_pos n).
  rewrite get_app_r by lia. rewrite L.
  rewrite get_app_l by (rewrite zlen_repeat; lia). apply get_repeat. lia.
Qed.
(** The size after the class of [n] bits is larger, or zero at the end. *)
Lemma hs_get_next : forall n, (n <= 16)%nat ->
  (Fn n = Fn 16 -> get hs (Fn n) = Ok 0) /\
  (Fn n < Fn 16 -> exists s, get hs (Fn n) = Ok s /\ Z.of_nat n < s <= 16).
Proof.
  intros n Hn. pose proof (Fn_pos n). split; intros HF.
  - unfold hs. rewrite get_app_r by (rewrite zl_length; lia). rewrite zl_length, HF, Z.sub_diag.
    apply get_repeat. pose proof (zl_length 16). unfold zlen in *. lia.
  - destruct (lens_split n 16 Hn) as [r [E FA]]. unfold hs, zl. rewrite E, map_app, <- app_assoc.
    pose proof (zl_length n) as L. unfold zl in L.
    pose proof (lens_length 16) as L16. rewrite E, app_length in L16. pose proof (lens_length n).
    destruct r as [|x r]; [cbn [length] in L16; lia|].
    rewrite get_app_r by lia. rewrite L, Z.sub_diag. exists (Z.of_nat x).
    split; [reflexivity|]. apply Forall_inv in FA. lia.
Qed.

Lemma codes_same : forall n m, (n <= m)%nat -> Fn n = Fn m -> codes m = codes n.
Proof.
  intros n m H. induction H; intros E; [reflexivity|]. cbn [codes Fn] in *.
  pose proof (cn_pos (S m)). pose proof (Fn_mono n m H).
  rewrite zrange_empty by (cbn [En]; lia). rewrite app_nil_r. apply IHle. lia.
Qed.
Lemma first_class : 0 < Fn 16 -> exists n, (n < 16)%nat /\ Fn n = 0 /\ 0 < cn (S n) /\ En n = 0.
Proof.
  assert (G : forall m, 0 < Fn m -> exists n, (n < m)%nat /\ Fn n = 0 /\ 0 < cn (S n) /\ En n = 0).
  { induction m; intros H; cbn [Fn] in H; [lia|]. destruct (Z_lt_ge_dec 0 (Fn m)) as [L|L].
    - destruct (IHm L) as [n [A B]]. exists n. split; [lia|exact B].
    - pose proof (Fn_pos m). exists m. split; [lia|]. split; [lia|]. split; [lia|].
      assert (Fz : Fn m = 0) by lia. clear - Hpos Fz. induction m; [reflexivity|]. cbn [Fn En] in *.
      pose proof (Fn_pos m). pose proof (cn_pos (S m)). rewrite IHm; lia. }
  apply G.
Qed.
Definition hc := codes 16 ++ repeat 0 (257 - length (codes 16)).
Lemma codes_split : forall n m, (n <= m)%nat -> exists r, codes m = codes n ++ r.
Proof.
  intros n m H. induction H; [exists []; rewrite app_nil_r; reflexivity|].
  destruct IHle as [r E]. cbn [codes]. rewrite E, <- app_assoc. eauto.
Qed.
Lemma hc_get : forall n i, (n < 16)%nat -> 0 <= i < cn (S n) -> get hc (Fn n + i) = Ok (2 * En n + i).
Proof.
  intros n i Hn Hi. unfold hc. destruct (codes_split (S n) 16 Hn) as [r E]. rewrite E. cbn [codes].
  rewrite <- !app_assoc. pose proof (codes_length n) as L. pose proof (Fn_pos n).
  rewrite get_app_r by lia. rewrite L.
  assert (zlen (zrange (2 * En n) (En (S n))) = cn (S n)) as Lr.
  { unfold zlen. rewrite zrange_length. cbn [En]. lia. }
  rewrite get_app_l by lia. rewrite get_ok by lia. f_equal. unfold znth. cbn [En] in *.
  rewrite zrange_nth by (unfold zlen in *; lia). lia.
Qed.

Variable M : Mode.
Hypothesis Hfull : debug = true -> 0 < cn 16 -> En 16 < 2 ^ 16.
Lemma codes_run_ok : forall (c : nat) fuel n pre p code, (c < fuel)%nat -> (n < 16)%nat ->
  p = zlen pre -> p <= 256 ->
  (forall i, 0 <= i < Z.of_nat c -> get hs (p + i) = Ok (Z.of_nat (S n))) ->
  (exists s, get hs (p + Z.of_nat c) = Ok s /\ s <> Z.of_nat (S n)) ->
  0 <= code -> code + Z.of_nat c <= 2 ^ 16 -> (debug = true -> (0 < c)%nat -> code + Z.of_nat c < 2 ^ 16) ->
  code < 2 ^ 16 -> p + Z.of_nat c <= 256 ->
  huff_codes_run fuel hs (Z.of_nat (S n)) (pre ++ repeat 0 (257 - length pre)) p code =
  Ok ((pre ++ zrange code (code + Z.of_nat c)) ++ repeat 0 (257 - length (pre ++ zrange code (code + Z.of_nat c))),
      p + Z.of_nat c, (code + Z.of_nat c) mod 2 ^ 16).
Proof.
  induction c; intros fuel n pre p code Hf Hn Hp Hp2 Hg [s [Hs Hs2]] H0 H1 H2 H3 H4; (destruct fuel; [lia|]);
    cbn [huff_codes_run].
  - rewrite Z.add_0_r in *. rewrite Hs. cbn [bind]. replace (s =? Z.of_nat (S n)) with false by lia.
    rewrite zrange_empty, app_nil_r by lia. rewrite Z.mod_small by lia. change (Z.of_nat 0) with 0. rewrite !Z.add_0_r. reflexivity.
  - pose proof (Hg 0 ltac:(lia)) as G0. rewrite Z.add_0_r in G0. rewrite G0. cbn [bind].
    rewrite Z.eqb_refl. subst p. rewrite upd_end by (unfold zlen in *; lia). cbn [bind].
    replace (257 - length pre - 1)%nat with (257 - length (pre ++ [code]))%nat by (rewrite app_length; cbn [length]; lia).
    rewrite (zrange_cons code) by lia.
    replace (code + Z.of_nat (S c)) with ((code + 1) + Z.of_nat c) by lia.
    destruct (Z.eq_dec (code + 1) (2 ^ 16)) as [W|W].
    + (* the last 16-bit code: release build only *)
      assert (Hc : c = 0%nat) by lia. subst c.
      assert (Hd : debug = false) by (destruct debug; [specialize (H2 eq_refl ltac:(lia)); lia|reflexivity]).
      unfold u16add, arith_u. rewrite W. change ((0 <=? 2 ^ 16) && (2 ^ 16 <? 2 ^ 16)) with false. rewrite Hd. cbn [bind].
      destruct fuel; [lia|]. cbn [huff_codes_run].
      replace (zlen pre + 1) with (zlen pre + Z.of_nat 1) by lia. rewrite Hs. cbn [bind].
      replace (s =? Z.of_nat (S n)) with false by lia.
      rewrite zrange_empty by lia. rewrite Z.add_0_r. reflexivity.
    + unfold u16add. rewrite arith_u_ok by lia. cbn [bind].
      rewrite (IHc fuel n (pre ++ [code]) (zlen pre + 1) (code + 1)); try lia.
      * rewrite <- !app_assoc. f_equal. f_equal. f_equal. lia.
      * rewrite zlen_app. reflexivity.
      * intros i Hi. replace (zlen pre + 1 + i) with (zlen pre + (i + 1)) by lia. apply Hg. lia.
      * exists s. split; [|assumption]. rewrite <- Hs. f_equal. lia.
Qed.
Lemma zcodes_length : forall n, Z.of_nat (length (codes n)) = Fn n.
Proof. exact codes_length. Qed.

Lemma codes_loop_ok : forall fuel n, (n <= 16)%nat -> (17 - n <= fuel)%nat ->
  huff_codes_loop fuel hs (Z.of_nat (S n)) (codes n ++ repeat 0 (257 - length (codes n))) (Fn n) ((2 * En n) mod 2 ^ 16)
  = Ok (codes 16 ++ repeat 0 (257 - length (codes 16))).
Proof.
  induction fuel; intros n Hn Hf; [lia|]. cbn [huff_codes_loop].
  destruct (hs_get_next n Hn) as [G0 G1]. pose proof (Fn_mono n 16 Hn) as Hmono. pose proof (Fn_pos n) as HF0.
  destruct (Z.eq_dec (Fn n) (Fn 16)) as [E|E].
  - rewrite (G0 E). cbn [bind]. change (0 <? 0) with false. cbv iota. rewrite (codes_same n 16) by assumption. reflexivity.
  - destruct (G1 ltac:(lia)) as [s [Gs Hs]]. rewrite Gs. cbn [bind]. replace (0 <? s) with true by lia.
    assert (Hn' : (n < 16)%nat) by (destruct (Nat.eq_dec n 16); [subst; lia|lia]).
    pose proof (En_bound_strict n Hn ltac:(lia)) as HE. pose proof (En_pos n) as HE0.
    assert (H2n : 2 ^ Z.of_nat n <= 2 ^ 15) by (apply Z.pow_le_mono_r; lia).
    change (2 ^ 15) with 32768 in H2n. 
    rewrite Z.mod_small by (change (2 ^ 16) with 65536; lia).
    pose proof (cn_pos (S n)) as Hc. pose proof (En_bound (S n) Hn') as HB. cbn [En] in HB.
    assert (H2n' : 2 ^ Z.of_nat (S n) <= 2 ^ 16) by (apply Z.pow_le_mono_r; lia).
    pose proof (Fn_mono (S n) 16 Hn') as HF. change (Fn (S n)) with (Fn n + cn (S n)) in HF.
    rewrite (codes_run_ok (Z.to_nat (cn (S n))) 300 n (codes n) (Fn n) (2 * En n)).
    + cbn [bind]. rewrite Z2Nat.id by lia.
      unfold u32add. rewrite arith_u_ok by (change (2 ^ 32) with 4294967296; lia). cbn [bind].
      replace (256 <? Fn n + cn (S n)) with false by lia.
      change (2 * En n + cn (S n)) with (En (S n)).
      change (codes n ++ zrange (2 * En n) (En (S n))) with (codes (S n)).
      change (Fn n + cn (S n)) with (Fn (S n)).
      replace (Z.of_nat (S n) + 1) with (Z.of_nat (S (S n))) by lia.
      replace (as_u16 (Z.shiftl (En (S n) mod 2 ^ 16) 1)) with ((2 * En (S n)) mod 2 ^ 16).
      * apply IHfuel; lia.
      * unfold as_u16. rewrite Z.shiftl_mul_pow2 by lia. change (2 ^ 1) with 2.
        rewrite Zmult_mod_idemp_l. f_equal. lia.
    + lia.
    + assumption.
    + symmetry. apply codes_length.
    + lia.
    + intros i Hi. apply hs_get_class; lia.
    + rewrite Z2Nat.id by lia. change (Fn n + cn (S n)) with (Fn (S n)).
      destruct (hs_get_next (S n) Hn') as [N0 N1].
      destruct (Z.eq_dec (Fn (S n)) (Fn 16)) as [E'|E'].
      * exists 0. split; [exact (N0 E')|lia].
      * change (Fn (S n)) with (Fn n + cn (S n)) in *. destruct (N1 ltac:(lia)) as [s' [Gs' Hs']]. exists s'. split; [exact Gs'|lia].
    + lia.
    + lia.
    + rewrite Z2Nat.id by lia. intros Hd Hcc. destruct (Nat.eq_dec (S n) 16) as [E16|E16].
      * specialize (Hfull Hd). rewrite <- E16 in Hfull. cbn [En] in Hfull. apply Hfull. lia.
      * assert (2 ^ Z.of_nat (S n) <= 2 ^ 15) by (apply Z.pow_le_mono_r; lia).
        change (2 ^ 15) with 32768 in *. change (2 ^ 16) with 65536 in *. lia.
    + change (2 ^ 16) with 65536. lia.
    + rewrite Z2Nat.id by lia. lia.
Qed.
Lemma codes_loop_stop : forall fuel h si c p code, get h p = Ok 0 -> huff_codes_loop (S fuel) h si c p code = Ok c.
Proof. intros fuel h si c p code H. cbn [huff_codes_loop]. rewrite H. reflexivity. Qed.
Lemma huff_codes_ok : huff_codes hs = Ok (codes 16 ++ repeat 0 (257 - length (codes 16))).
Proof.
  unfold huff_codes. pose proof (Fn_pos 16).
  destruct (Z.eq_dec (Fn 16) 0) as [E|E].
  - destruct (hs_get_next 0%nat ltac:(lia)) as [G0 _]. specialize (G0 (eq_sym E)). change (Fn 0) with 0 in G0. 
    rewrite G0, bind_Ok. rewrite (codes_loop_stop 299) by exact G0.
    rewrite (codes_same 0 16) by (auto; lia). reflexivity.
  - destruct (first_class ltac:(lia)) as [n [Hn [HF [Hc HE]]]].
    pose proof (hs_get_class n 0 Hn ltac:(lia)) as G. rewrite HF in G. cbn [Z.add] in G. rewrite G. cbn [bind].
    pose proof (codes_loop_ok 300 n ltac:(lia) ltac:(lia)) as L.
    rewrite HF, HE in L. change ((2 * 0) mod 2 ^ 16) with 0 in L. rewrite (codes_same 0 n) in L by (cbn [Fn]; lia).
    exact L.
Qed.
End Table.
