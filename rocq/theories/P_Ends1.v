(** Proofs that loops end: readers, tables, packed formats. *)
From Coq Require Import String ZArith List Bool Lia ZifyBool ZifyNat.
From Verif Require Import Base Bytes Pumps ByteStream Huffman Lookup Packed Threads P_Base P_Tiff2.
Import ListNotations.
Local Open Scope Z_scope.
Ltac Zify.zify_post_hook ::= Z.div_mod_to_equations.

Create HintDb ends discriminated.
#[global] Hint Constants Opaque : ends.
#[global] Hint Resolve ends_Ok ends_Err ends_Panic ends_slice ends_slice_from ends_get ends_upd ends_arith_u ends_arith_s
  ends_ru16 ends_ru32 ends_BEu16 ends_LEu16 ends_BEu32 ends_LEu32 : ends.
Ltac et1 := first
  [ solve [eauto 8 with ends nocore]
  | match goal with
    | |- ends (bind _ _) => apply ends_bind_ok; [|intros ? ?]
    | |- ends (rfold _ _ _) => apply ends_rfold; intros ? ?
    | |- ends (mapM _ _) => apply ends_mapM; intros ?
    | |- ends (if ?b then _ else _) => destruct b
    | |- ends (match ?x with _ => _ end) => destruct x
    | |- ends ((match ?x with _ => _ end) _) => destruct x
    end ].
Ltac et := repeat (cbv zeta; et1).

(** A table made by the code *)
Definition tab_ok (t : hufftable) : Prop := zlen (hmax t) = 18.
Section Ends.
Context {M : Mode}.
Lemma ends_usub : forall (a b : Z), ends (usub a b). Proof. intros; unfold usub; et. Qed.
#[local] Hint Resolve ends_usub : ends.
Lemma ends_uadd : forall (a b : Z), ends (uadd a b). Proof. intros; unfold uadd; et. Qed.
#[local] Hint Resolve ends_uadd : ends.
Lemma ends_umul : forall (a b : Z), ends (umul a b). Proof. intros; unfold umul; et. Qed.
#[local] Hint Resolve ends_umul : ends.
Lemma ends_u32sub : forall (a b : Z), ends (u32sub a b). Proof. intros; unfold u32sub; et. Qed.
#[local] Hint Resolve ends_u32sub : ends.
Lemma ends_u32add : forall (a b : Z), ends (u32add a b). Proof. intros; unfold u32add; et. Qed.
#[local] Hint Resolve ends_u32add : ends.
Lemma ends_u16sub : forall (a b : Z), ends (u16sub a b). Proof. intros; unfold u16sub; et. Qed.
#[local] Hint Resolve ends_u16sub : ends.
Lemma ends_u16add : forall (a b : Z), ends (u16add a b). Proof. intros; unfold u16add; et. Qed.
#[local] Hint Resolve ends_u16add : ends.
Lemma ends_i32add : forall (a b : Z), ends (i32add a b). Proof. intros; unfold i32add; et. Qed.
#[local] Hint Resolve ends_i32add : ends.
Lemma ends_i32sub : forall (a b : Z), ends (i32sub a b). Proof. intros; unfold i32sub; et. Qed.
#[local] Hint Resolve ends_i32sub : ends.
Lemma ends_i32mul : forall (a b : Z), ends (i32mul a b). Proof. intros; unfold i32mul; et. Qed.
#[local] Hint Resolve ends_i32mul : ends.
Lemma ends_shamt : forall (n s : Z), ends (shamt n s). Proof. intros; unfold shamt; et. Qed.
#[local] Hint Resolve ends_shamt : ends.
Lemma ends_shl_u : forall (n a s : Z), ends (shl_u n a s). Proof. intros; unfold shl_u; et. Qed.
#[local] Hint Resolve ends_shl_u : ends.
Lemma ends_shr_u : forall (n a s : Z), ends (shr_u n a s). Proof. intros; unfold shr_u; et. Qed.
#[local] Hint Resolve ends_shr_u : ends.
Lemma ends_lsb_peek : forall (p : pump) (num : Z), ends (lsb_peek p num). Proof. intros; unfold lsb_peek; et. Qed.
#[local] Hint Resolve ends_lsb_peek : ends.
Lemma ends_lsb_consume : forall (p : pump) (num : Z), ends (lsb_consume p num). Proof. intros; unfold lsb_consume; et. Qed.
#[local] Hint Resolve ends_lsb_consume : ends.
Lemma ends_msb_top : forall (p : pump) (num : Z), ends (msb_top p num). Proof. intros; unfold msb_top; et. Qed.
#[local] Hint Resolve ends_msb_top : ends.
Lemma ends_msb_push32 : forall (p : pump) (inbits : Z), ends (msb_push32 p inbits). Proof. intros; unfold msb_push32; et. Qed.
#[local] Hint Resolve ends_msb_push32 : ends.
Lemma ends_msb_peek : forall (p : pump) (num : Z), ends (msb_peek p num). Proof. intros; unfold msb_peek; et. Qed.
#[local] Hint Resolve ends_msb_peek : ends.
Lemma ends_msb32_peek : forall (p : pump) (num : Z), ends (msb32_peek p num). Proof. intros; unfold msb32_peek; et. Qed.
#[local] Hint Resolve ends_msb32_peek : ends.
Lemma ends_msb_consume : forall (p : pump) (num : Z), ends (msb_consume p num). Proof. intros; unfold msb_consume; et. Qed.
#[local] Hint Resolve ends_msb_consume : ends.
Lemma ends_jpeg_fast : forall (p : pump), ends (jpeg_fast p). Proof. intros; unfold jpeg_fast; et. Qed.
#[local] Hint Resolve ends_jpeg_fast : ends.
Lemma ends_jpeg_slow : forall (todo : nat) (p : pump), ends (jpeg_slow todo p). Proof. induction todo as [|n IH]; intros; cbn [jpeg_slow]; et; apply IH. Qed.
#[local] Hint Resolve ends_jpeg_slow : ends.
Lemma ends_jpeg_peek : forall (p : pump) (num : Z), ends (jpeg_peek p num). Proof. intros; unfold jpeg_peek; et. Qed.
#[local] Hint Resolve ends_jpeg_peek : ends.
Lemma ends_peek_bits : forall (k : pkind) (p : pump) (num : Z), ends (peek_bits k p num). Proof. intros; unfold peek_bits; et. Qed.
#[local] Hint Resolve ends_peek_bits : ends.
Lemma ends_consume_bits : forall (k : pkind) (p : pump) (num : Z), ends (consume_bits k p num). Proof. intros; unfold consume_bits; et. Qed.
#[local] Hint Resolve ends_consume_bits : ends.
Lemma ends_get_bits : forall (k : pkind) (p : pump) (num : Z), ends (get_bits k p num). Proof. intros; unfold get_bits; et. Qed.
#[local] Hint Resolve ends_get_bits : ends.
Lemma ends_peek_ibits : forall (k : pkind) (p : pump) (num : Z), ends (peek_ibits k p num). Proof. intros; unfold peek_ibits; et. Qed.
#[local] Hint Resolve ends_peek_ibits : ends.
Lemma ends_get_ibits : forall (k : pkind) (p : pump) (num : Z), ends (get_ibits k p num). Proof. intros; unfold get_ibits; et. Qed.
#[local] Hint Resolve ends_get_ibits : ends.
Lemma ends_get_ibits_sextended : forall (k : pkind) (p : pump) (num : Z), ends (get_ibits_sextended k p num). Proof. intros; unfold get_ibits_sextended; et. Qed.
#[local] Hint Resolve ends_get_ibits_sextended : ends.
Lemma ends_msb32_get_pos : forall (p : pump), ends (msb32_get_pos p). Proof. intros; unfold msb32_get_pos; et. Qed.
#[local] Hint Resolve ends_msb32_get_pos : ends.
Lemma ends_bs_peek_u8 : forall (s : bstream), ends (bs_peek_u8 s). Proof. intros; unfold bs_peek_u8; et. Qed.
#[local] Hint Resolve ends_bs_peek_u8 : ends.
Lemma ends_bs_get_u8 : forall (s : bstream), ends (bs_get_u8 s). Proof. intros; unfold bs_get_u8; et. Qed.
#[local] Hint Resolve ends_bs_get_u8 : ends.
Lemma ends_bs_peek_u16 : forall (s : bstream), ends (bs_peek_u16 s). Proof. intros; unfold bs_peek_u16; et. Qed.
#[local] Hint Resolve ends_bs_peek_u16 : ends.
Lemma ends_bs_get_u16 : forall (s : bstream), ends (bs_get_u16 s). Proof. intros; unfold bs_get_u16; et. Qed.
#[local] Hint Resolve ends_bs_get_u16 : ends.
Lemma ends_bs_skip_loop : forall fuel s k, (Z.to_nat (zlen (bsbuf s) - bspos s) < fuel)%nat -> ends (Pumps.bs_skip_loop fuel s k).
Proof.
  induction fuel as [|n IH]; intros s k H; [lia|]. cbn [bs_skip_loop].
  apply ends_bind_ok; [et|intros b0 G]. apply get_ok_inv in G. apply ends_bind; [et|intros stop]. destruct stop; [et|].
  cbv zeta. cbn [bs_consume bspos bsbuf]. match goal with |- ends (if ?c then _ else _) => destruct c eqn:E end; [et|]. apply IH. cbn [bs_consume bspos bsbuf]. unfold zlen in *. lia.
Qed.
Lemma ends_bs_skip : forall fuel buf pos, (Z.to_nat (zlen buf - pos) < fuel)%nat -> ends (bs_skip fuel buf pos).
Proof.
  induction fuel as [|n IH]; intros buf pos H; [lia|]. cbn [bs_skip].
  apply ends_bind_ok; [et|intros b0 G]. apply get_ok_inv in G. apply ends_bind; [et|intros stop]. destruct stop; [et|].
  match goal with |- ends (if ?c then _ else _) => destruct c eqn:E end; [et|]. apply IH. unfold zlen in *. lia.
Qed.
Lemma ends_bs_skip_to_marker : forall buf pos, 0 <= pos -> ends (ByteStream.bs_skip_to_marker buf pos).
Proof. intros. apply ends_bs_skip. unfold zlen. lia. Qed.
#[local] Hint Resolve ends_bs_skip_to_marker : ends.
Lemma ends_bs_u8 : forall (buf : list Z) (pos : Z), ends (bs_u8 buf pos). Proof. intros; unfold bs_u8; et. Qed.
#[local] Hint Resolve ends_bs_u8 : ends.
Lemma ends_bs_u16 : forall (e : endian) (buf : list Z) (pos : Z), ends (bs_u16 e buf pos). Proof. intros; unfold bs_u16; et. Qed.
#[local] Hint Resolve ends_bs_u16 : ends.
Lemma ends_huff_sizes : forall (bits : list Z), ends (huff_sizes bits). Proof. intros; unfold huff_sizes; et. Qed.
#[local] Hint Resolve ends_huff_sizes : ends.
Lemma ends_shl_i32 : forall a s, ends (shl_i32 a s). Proof. intros; unfold shl_i32; et. Qed.
#[local] Hint Resolve ends_shl_i32 : ends.
Lemma ends_huff_codes_run : forall fuel hs si hc p code, (Z.to_nat (zlen hs - p) < fuel)%nat -> ends (huff_codes_run fuel hs si hc p code).
Proof.
  induction fuel as [|n IH]; intros hs si hc p code H; [lia|]. cbn [huff_codes_run].
  apply ends_bind_ok; [et|intros b0 G]. apply get_ok_inv in G. destruct (b0 =? si); [|et].
  apply ends_bind; [et|intros]. apply ends_bind; [et|intros]. apply IH. unfold zlen in *. lia.
Qed.
Lemma Ok_inj' : forall {A} (a b : A), Ok a = Ok b -> a = b. Proof. congruence. Qed.
(** What figure C.1 gives: the sizes go up, and zeros follow. *)
Definition sizes_ok (hs : list Z) (p top : Z) : Prop :=
  zlen hs = 257 /\ 0 <= p <= 256 /\
  (forall i, 0 <= i < p -> 1 <= znth hs i <= top) /\ (forall i j, 0 <= i <= j -> j < p -> znth hs i <= znth hs j) /\
  (forall i, p <= i -> znth hs i = 0).
Lemma sizes_ok_mono : forall hs p a b, a <= b -> sizes_ok hs p a -> sizes_ok hs p b.
Proof. intros hs p a b L [A [B [C D]]]. split; [exact A|]. split; [exact B|]. split; [|exact D]. intros i I. specialize (C i I). lia. Qed.
Lemma znth_upd : forall hs p v r i, upd hs p v = Ok r -> 0 <= i -> znth r i = if i =? p then v else znth hs i.
Proof.
  intros hs p v r i H Hi. apply upd_inv in H. destruct H as [Hp ->]. apply znth_upd_nat; assumption.
Qed.
Lemma huff_sizes_inv : forall bits hs p, huff_sizes bits = Ok (hs, p) -> sizes_ok hs p 16.
Proof.
  intros bits hs p H. unfold huff_sizes in H.
  assert (G : forall n l st hs' p', 1 <= l -> sizes_ok (fst st) (snd st) (l - 1) ->
    rfold (fun l st => b <- get bits l ;; rfold (fun _ '(hs, p) => hs' <- upd hs p l ;; if 256 <? p + 1 then Err too_long else Ok (hs', p + 1)) (zrange 1 (b + 1)) st)
      (zrange l (l + Z.of_nat n)) st = Ok (hs', p') -> sizes_ok hs' p' (l + Z.of_nat n - 1)).
  { induction n as [|n IH]; intros l st hs' p' Hl K E.
    - replace (l + Z.of_nat 0) with l in * by lia. rewrite zrange_empty in E by lia. cbn [rfold] in E. injection E as ->. exact K.
    - rewrite zrange_cons in E by lia. cbn [rfold] in E. inv_bind E. inv_bind E0.
      replace (l + Z.of_nat (S n)) with ((l + 1) + Z.of_nat n) in * by lia. apply (IH (l + 1) v); [lia| |exact E].
      replace (l + 1 - 1) with l by lia.
      clear E IH E1. revert E0. generalize (zrange 1 (v0 + 1)). intros ls.
      apply (sizes_ok_mono _ _ (l - 1) l) in K; [|lia]. revert st K. induction ls as [|x t IHt]; intros st K E0.
      + cbn in E0. injection E0 as <-. exact K.
      + cbn [rfold] in E0. inv_bind E0. destruct st as [a q]. cbn [fst snd] in *. inv_bind E. rename v2 into a'.
        destruct (256 <? q + 1) eqn:Q; [discriminate|]. injection E as <-. apply (IHt (a', q + 1)); [|exact E0]. cbn [fst snd].
        destruct K as [K1 [K2 [K3 [K4 K5]]]].
        assert (U : forall i, 0 <= i -> znth a' i = if i =? q then l else znth a i) by (intros i Hi; apply (znth_upd _ _ _ _ i E1 Hi)).
        apply upd_inv in E1. destruct E1 as [Hq ->]. split; [unfold zlen in *; rewrite upd_nat_length; exact K1|]. split; [lia|]. split; [|split].
        * intros i Hi. rewrite U by lia. destruct (Z.eqb_spec i q); [lia|apply K3; lia].
        * intros i j Hi Hj. rewrite (U i), (U j) by lia. destruct (Z.eqb_spec i q) as [I1|I1].
          { destruct (Z.eqb_spec j q); lia. }
          assert (1 <= znth a i <= l) by (apply K3; lia). destruct (Z.eqb_spec j q) as [J1|J1]; [lia|apply K4; lia].
        * intros i Hi. rewrite U by lia. destruct (Z.eqb_spec i q); [lia|apply K5; lia]. }
  apply (G 16%nat 1 (zeros 257, 0)); [lia| |exact H]. cbn [fst snd].
  split; [reflexivity|]. split; [lia|]. split; [lia|]. split; [lia|]. intros i Hi. unfold znth, zeros. apply nth_repeat.
Qed.
Lemma run_stops : forall fuel hs si hc p code hc' p' code', 0 <= p -> huff_codes_run fuel hs si hc p code = Ok (hc', p', code') ->
  p <= p' < zlen hs /\ znth hs p' <> si /\ forall i, p <= i < p' -> znth hs i = si.
Proof.
  induction fuel as [|n IH]; intros hs si hc p code hc' p' code' Hp H; [discriminate|]. cbn [huff_codes_run] in H. inv_bind H.
  apply get_ok_inv in E as G. destruct G as [G1 G2]. assert (V : v = znth hs p) by (unfold znth; apply nth_error_nth with (d := 0) in G2; congruence).
  destruct (Z.eqb_spec v si) as [-> | N].
  - inv_bind H. inv_bind H. apply IH in H; [|lia]. destruct H as [A [B C]]. split; [lia|]. split; [exact B|].
    intros i Hi. destruct (Z.eq_dec i p) as [-> | ?]; [congruence|apply C; lia].
  - injection H as _ <- _. split; [unfold zlen in *; lia|]. split; [congruence|]. lia.
Qed.
Lemma ends_huff_codes_loop : forall fuel hs si hc p code lst, sizes_ok hs lst 16 -> 0 <= p ->
  (forall i, p <= i < lst -> si <= znth hs i) -> 0 <= si -> (Z.to_nat (17 - si) < fuel)%nat -> ends (huff_codes_loop fuel hs si hc p code).
Proof.
  induction fuel as [|n IH]; intros hs si hc p code lst Sk Hp Hs Hpos Hf; [lia|]. cbn [huff_codes_loop].
  apply ends_bind_ok; [et|intros s G]. apply get_ok_inv in G. destruct G as [G1 G2].
  assert (V : s = znth hs p) by (unfold znth; apply nth_error_nth with (d := 0) in G2; congruence).
  destruct (0 <? s) eqn:P; [|et].
  pose proof Sk as [S1 [S2 [S3 [S4 S5]]]].
  assert (L : p < lst) by (destruct (Z_lt_le_dec p lst); [assumption|]; rewrite S5 in V by lia; lia).
  apply ends_bind_ok.
  { apply ends_huff_codes_run. rewrite S1. lia. }
  intros [[hc' p'] code'] R. apply run_stops in R; [|lia]. destruct R as [R1 [R2 R3]].
  assert (Hsi : si <= 16) by (specialize (Hs p ltac:(lia)); specialize (S3 p ltac:(lia)); lia).
  apply ends_bind_ok; [et|intros si' A]. destruct (256 <? p'); [et|].
  unfold u32add in A. rewrite arith_u_ok in A by (p2; lia). apply Ok_inj' in A. subst si'.
  apply (IH _ _ _ _ _ lst Sk); [lia| |lia|lia]. intros i Hi.
  assert (si <= znth hs p') by (apply Hs; lia). assert (znth hs p' <= znth hs i) by (apply S4; lia). lia.
Qed.
Lemma ends_huff_codes : forall hs p, sizes_ok hs p 16 -> ends (huff_codes hs).
Proof.
  intros hs p Sk. unfold huff_codes. apply ends_bind_ok; [et|intros s G]. apply get_ok_inv in G. destruct G as [G1 G2].
  assert (V : s = znth hs 0) by (unfold znth; apply nth_error_nth with (d := 0) in G2; congruence).
  pose proof Sk as [S1 [S2 [S3 [S4 S5]]]].
  assert (0 <= s) by (destruct (Z_lt_le_dec 0 p); [specialize (S3 0 ltac:(lia)); lia|rewrite V, S5 by lia; lia]).
  apply (ends_huff_codes_loop 300 hs s _ 0 0 p Sk); try lia. intros i Hi. rewrite V. apply S4; lia.
Qed.
Lemma ends_huff_pointers : forall (bits hc vp0 mn0 mx0 : list Z), ends (huff_pointers bits hc vp0 mn0 mx0). Proof. intros; unfold huff_pointers; et. Qed.
#[local] Hint Resolve ends_huff_pointers : ends.
Lemma ends_huff_numbits : forall (hs hc vals : list Z) (lastp : Z) (nb0 : list Z), ends (huff_numbits hs hc vals lastp nb0). Proof. intros; unfold huff_numbits; et. Qed.
#[local] Hint Resolve ends_huff_numbits : ends.
Lemma ends_big_walk : forall fuel mx input code l, (Z.to_nat (16 - l) < fuel)%nat -> ends (big_walk fuel mx input code l).
Proof.
  induction fuel as [|n IH]; intros mx input code l H; [lia|]. cbn [big_walk].
  apply ends_bind; [et|intros m]. destruct ((m <? code) && (l <? 16)) eqn:E; [|et]. apply ends_bind; [et|intros t]. apply IH. lia.
Qed.
Lemma ends_big_walk' : forall mx input code, ends (big_walk 10 mx input code 8).
Proof. intros. apply ends_big_walk. lia. Qed.
#[local] Hint Resolve ends_big_walk' : ends.
Lemma ends_big_value : forall (dng : bool) (input rv l : Z), ends (big_value dng input rv l). Proof. intros; unfold big_value; et. Qed.
#[local] Hint Resolve ends_big_value : ends.
Lemma ends_big_entry : forall (t : hufftable) (i : Z), ends (big_entry t i). Proof. intros; unfold big_entry; et. Qed.
#[local] Hint Resolve ends_big_entry : ends.
Lemma ends_huff_bigtable : forall (t : hufftable), ends (huff_bigtable t). Proof. intros; unfold huff_bigtable; et. Qed.
#[local] Hint Resolve ends_huff_bigtable : ends.
Lemma sizes_upd : forall hs p hs', sizes_ok hs p 16 -> upd hs p 0 = Ok hs' -> sizes_ok hs' p 16.
Proof.
  intros hs p hs' [S1 [S2 [S3 [S4 S5]]]] U.
  assert (E : forall i, 0 <= i -> znth hs' i = znth hs i).
  { intros i Hi. rewrite (znth_upd _ _ _ _ i U Hi). destruct (Z.eqb_spec i p); [subst; rewrite S5 by lia; reflexivity|reflexivity]. }
  apply upd_inv in U. destruct U as [Hp ->]. split; [unfold zlen in *; rewrite upd_nat_length; exact S1|]. split; [exact S2|].
  split; [|split].
  - intros i Hi. rewrite E by lia. apply S3; lia.
  - intros i j Hi Hj. rewrite !E by lia. apply S4; lia.
  - intros i Hi. rewrite E by lia. apply S5; lia.
Qed.
Lemma ends_huff_initialize : forall t b, ends (huff_initialize t b).
Proof.
  intros. unfold huff_initialize. apply ends_bind_ok; [et|intros [hs lastp] Hs]. apply huff_sizes_inv in Hs.
  apply ends_bind_ok; [et|intros hs' U]. apply (sizes_upd _ _ _ Hs) in U.
  apply ends_bind; [apply (ends_huff_codes _ _ U)|intros hc]. et.
Qed.
Lemma upd_zlen : forall {A} (l : list A) i v r, upd l i v = Ok r -> zlen r = zlen l.
Proof. intros A l i v r H. apply upd_inv in H. destruct H as [_ ->]. unfold zlen. rewrite upd_nat_length. reflexivity. Qed.
Lemma huff_initialize_ok : forall t b t', zlen (hmax t) = 18 -> huff_initialize t b = Ok t' -> tab_ok t'.
Proof.
  intros t b t' H E. unfold huff_initialize in E. inv_bind E. destruct v as [hs lastp]. inv_bind E. inv_bind E. inv_bind E.
  destruct v1 as [[vp mn] mx]. inv_bind E. inv_bind E. apply Ok_inj' in E. subst t'. unfold tab_ok. cbn [hmax].
  unfold huff_pointers in E3. inv_bind E3. inv_bind E3. inv_bind E3. destruct v5 as [[[a b'] c] d]. inv_bind E3. apply Ok_inj' in E3.
  injection E3 as _ _ <-. apply upd_zlen in E8. rewrite E8. clear E8 E5 E4.
  apply upd_zlen in E6. rewrite H in E6. 
  revert E7. generalize (zrange 1 17). intros ls.
  assert (G : forall st r, zlen (snd (fst st)) = 18 ->
    rfold (fun l '(vp, mn, mx, p) =>
      b <- get (hbits t) l ;;
      '(vp', mn', mx', p') <-
        (if 0 <? b then
           vp' <- upd vp l (as_i16 p) ;;
           c <- get v0 p ;; mn' <- upd mn l c ;;
           let p' := p + b in
           c' <- get v0 (p' - 1) ;; mx' <- upd mx l c' ;;
           Ok (vp', mn', mx', p')
         else
           vp' <- upd vp l 255 ;;
           mx' <- upd mx l (-1) ;;
           Ok (vp', mn, mx', p)) ;;
      if 256 <? p' then Err too_long else Ok (vp', mn', mx', p')) ls st = Ok r -> zlen (snd (fst r)) = 18).
  { induction ls as [|x ls IH]; intros st r Hst R; cbn [rfold] in R; [injection R as <-; exact Hst|].
    apply bind_inv in R. destruct R as [st' [R1 R]]. apply (IH st' r); [|exact R]. clear R IH.
    destruct st as [[[vp0 mn0] mx0] p0]. cbn [fst snd] in Hst. apply bind_inv in R1. destruct R1 as [bb [_ R1]].
    apply bind_inv in R1. destruct R1 as [[[[x1 x2] x3] x4] [R2 R1]].
    destruct (256 <? x4); [discriminate|]. injection R1 as <-. cbn [fst snd].
    destruct (0 <? bb).
    - apply bind_inv in R2. destruct R2 as [? [_ R2]]. apply bind_inv in R2. destruct R2 as [? [_ R2]]. apply bind_inv in R2. destruct R2 as [? [_ R2]].
      apply bind_inv in R2. destruct R2 as [? [_ R2]]. apply bind_inv in R2. destruct R2 as [? [U R2]]. injection R2 as _ _ <- _. apply upd_zlen in U. congruence.
    - apply bind_inv in R2. destruct R2 as [? [_ R2]]. apply bind_inv in R2. destruct R2 as [? [U R2]]. injection R2 as _ _ <- _. apply upd_zlen in U. congruence. }
  intros R. apply G in R; [exact R|exact E6].
Qed.
Lemma ends_huff_new : forall bits huffval precision dng_bug, ends (huff_new bits huffval precision dng_bug). Proof. intros. apply ends_huff_initialize. Qed.
#[local] Hint Resolve ends_huff_new : ends.
Lemma huff_new_ok : forall bits huffval precision dng_bug t, huff_new bits huffval precision dng_bug = Ok t -> tab_ok t.
Proof. intros. eapply huff_initialize_ok; [|exact H]. reflexivity. Qed.
Lemma huff_empty_ok : forall p, tab_ok (huff_empty p). Proof. reflexivity. Qed.
#[local] Hint Resolve huff_new_ok huff_empty_ok : ends.
Lemma ends_len_walk : forall fuel k mx code l p, (Z.to_nat (zlen mx - l) < fuel)%nat -> ends (len_walk fuel k mx code l p).
Proof.
  induction fuel as [|n IH]; intros k mx code l p H; [lia|]. cbn [len_walk].
  apply ends_bind_ok; [et|intros m G]. apply get_ok_inv in G. destruct (m <? as_i32 code); [|et].
  apply ends_bind; [et|intros [t p1]]. apply IH. unfold zlen in *. lia.
Qed.
Lemma ends_len_walk' : forall k t code p, tab_ok t -> ends (len_walk 12 k (hmax t) code 8 p).
Proof. intros k t code p H. apply ends_len_walk. rewrite H. lia. Qed.
#[local] Hint Resolve ends_len_walk' : ends.
Lemma ends_huff_len : forall (k : pkind) (t : hufftable) (p : pump), tab_ok t -> ends (huff_len k t p). Proof. intros; unfold huff_len; et. Qed.
#[local] Hint Resolve ends_huff_len : ends.
Lemma ends_huff_diff : forall (k : pkind) (t : hufftable) (p : pump) (len : Z), ends (huff_diff k t p len). Proof. intros; unfold huff_diff; et. Qed.
#[local] Hint Resolve ends_huff_diff : ends.
Lemma ends_huff_slow : forall (k : pkind) (t : hufftable) (p : pump), tab_ok t -> ends (huff_slow k t p). Proof. intros; unfold huff_slow; et. Qed.
#[local] Hint Resolve ends_huff_slow : ends.
Lemma ends_huff_decode : forall (k : pkind) (t : hufftable) (p : pump), tab_ok t -> ends (huff_decode k t p). Proof. intros; unfold huff_decode; et. Qed.
#[local] Hint Resolve ends_huff_decode : ends.
Lemma ends_clampbits : forall (val bits : Z), ends (clampbits val bits). Proof. intros; unfold clampbits; et. Qed.
#[local] Hint Resolve ends_clampbits : ends.
Lemma ends_lookup_entry : forall (table : list Z) (i : Z), ends (lookup_entry table i). Proof. intros; unfold lookup_entry; et. Qed.
#[local] Hint Resolve ends_lookup_entry : ends.
Lemma ends_lookup_new : forall (table : list Z), ends (lookup_new table). Proof. intros; unfold lookup_new; et. Qed.
#[local] Hint Resolve ends_lookup_new : ends.
Lemma ends_dither : forall (tbl : ltable) (value rand : Z), ends (dither tbl value rand). Proof. intros; unfold dither; et. Qed.
#[local] Hint Resolve ends_dither : ends.
Lemma ends_zip_chunks_aux : forall fuel no ni body out inb, (forall o i, ends (body o i)) -> ends (zip_chunks_aux fuel no ni body out inb).
Proof.
  induction fuel as [|n IH]; intros no ni body out inb H; cbn [zip_chunks_aux]; [et|]. destruct out; [et|]. destruct inb; [et|].
  apply ends_bind; [apply H|intros]. apply ends_bind; [apply IH; exact H|intros; et].
Qed.
Lemma ends_zip_chunks : forall no ni body out inb, (forall o i, ends (body o i)) -> ends (zip_chunks no ni body out inb).
Proof. intros. apply ends_zip_chunks_aux. assumption. Qed.
#[local] Hint Resolve ends_zip_chunks : ends.
Lemma ends_decode_threaded : forall w h (f : list Z -> Z -> res (list Z)), (forall l r, ends (f l r)) -> ends (decode_threaded w h f).
Proof. intros w h f H. unfold decode_threaded. et. Qed.
Lemma ends_decode_threaded_multiline : forall w h n (f : list Z -> Z -> res (list Z)), (forall l r, ends (f l r)) -> ends (decode_threaded_multiline w h n f).
Proof. intros w h n f H. unfold decode_threaded_multiline. et. Qed.
End Ends.
#[global] Hint Resolve ends_usub ends_uadd ends_umul ends_u32sub ends_u32add ends_u16sub ends_u16add ends_i32add ends_i32sub ends_i32mul ends_shamt ends_shl_u ends_shr_u ends_lsb_peek ends_lsb_consume ends_msb_top ends_msb_push32 ends_msb_peek ends_msb32_peek ends_msb_consume ends_jpeg_fast ends_jpeg_slow ends_jpeg_peek ends_peek_bits ends_consume_bits ends_get_bits ends_peek_ibits ends_get_ibits ends_get_ibits_sextended ends_msb32_get_pos ends_bs_peek_u8 ends_bs_get_u8 ends_bs_peek_u16 ends_bs_get_u16 ends_bs_skip_to_marker ends_bs_u8 ends_bs_u16 ends_huff_sizes ends_shl_i32 ends_huff_pointers ends_huff_numbits ends_big_walk' ends_big_value ends_big_entry ends_huff_bigtable ends_huff_new huff_new_ok huff_empty_ok ends_len_walk' ends_huff_len ends_huff_diff ends_huff_slow ends_huff_decode ends_clampbits ends_lookup_entry ends_lookup_new ends_dither ends_zip_chunks : ends.
Ltac et2 := first [ et1 | match goal with
  | |- ends (decode_threaded _ _ _) => apply ends_decode_threaded; intros ? ?
  | |- ends (decode_threaded_multiline _ _ _ _) => apply ends_decode_threaded_multiline; intros ? ?
  | |- ends (zip_chunks _ _ _ _ _) => apply ends_zip_chunks; intros ? ? end ].
Ltac et ::= repeat (cbv zeta; et2).
Section Ends2.
Context {M : Mode}.
Lemma ends_store : forall (o : list Z) (i : Z) (vs : list Z), ends (store o i vs). Proof. intros o i vs. revert o i. induction vs as [|v t IH]; intros; cbn [store]; et; apply IH. Qed.
#[local] Hint Resolve ends_store : ends.
Lemma ends_dither_line : forall (tbl : ltable) (out inb : list Z) (random : Z), ends (dither_line tbl out inb random). Proof. intros tbl out. induction out as [|x t IH]; intros [|i inb] r; cbn [dither_line]; et; apply IH. Qed.
#[local] Hint Resolve ends_dither_line : ends.
Lemma ends_decode_8bit_wtable : forall (buf : list Z) (tbl : ltable) (width height : Z), ends (decode_8bit_wtable buf tbl width height). Proof. intros; unfold decode_8bit_wtable; et. Qed.
#[local] Hint Resolve ends_decode_8bit_wtable : ends.
Lemma ends_body_10le_lsb16 : forall (o i : list Z), ends (body_10le_lsb16 o i). Proof. intros; unfold body_10le_lsb16; et. Qed.
#[local] Hint Resolve ends_body_10le_lsb16 : ends.
Lemma ends_decode_10le_lsb16 : forall (buf : list Z) (width height : Z), ends (decode_10le_lsb16 buf width height). Proof. intros; unfold decode_10le_lsb16; et. Qed.
#[local] Hint Resolve ends_decode_10le_lsb16 : ends.
Lemma ends_body_10le : forall (o i : list Z), ends (body_10le o i). Proof. intros; unfold body_10le; et. Qed.
#[local] Hint Resolve ends_body_10le : ends.
Lemma ends_decode_10le : forall (buf : list Z) (width height : Z), ends (decode_10le buf width height). Proof. intros; unfold decode_10le; et. Qed.
#[local] Hint Resolve ends_decode_10le : ends.
Lemma ends_body_12be : forall (o i : list Z), ends (body_12be o i). Proof. intros; unfold body_12be; et. Qed.
#[local] Hint Resolve ends_body_12be : ends.
Lemma ends_body_12le : forall (o i : list Z), ends (body_12le o i). Proof. intros; unfold body_12le; et. Qed.
#[local] Hint Resolve ends_body_12le : ends.
Lemma ends_decode_12be : forall (buf : list Z) (width height : Z), ends (decode_12be buf width height). Proof. intros; unfold decode_12be; et. Qed.
#[local] Hint Resolve ends_decode_12be : ends.
Lemma ends_body_12be_msb16 : forall (o i : list Z), ends (body_12be_msb16 o i). Proof. intros; unfold body_12be_msb16; et. Qed.
#[local] Hint Resolve ends_body_12be_msb16 : ends.
Lemma ends_decode_12be_msb16 : forall (buf : list Z) (width height : Z), ends (decode_12be_msb16 buf width height). Proof. intros; unfold decode_12be_msb16; et. Qed.
#[local] Hint Resolve ends_decode_12be_msb16 : ends.
Lemma ends_decode_12le_16bitaligned : forall (buf : list Z) (width height : Z), ends (decode_12le_16bitaligned buf width height). Proof. intros; unfold decode_12le_16bitaligned; et. Qed.
#[local] Hint Resolve ends_decode_12le_16bitaligned : ends.
Lemma ends_body_12be_msb32 : forall (o i : list Z), ends (body_12be_msb32 o i). Proof. intros; unfold body_12be_msb32; et. Qed.
#[local] Hint Resolve ends_body_12be_msb32 : ends.
Lemma ends_decode_12be_msb32 : forall (buf : list Z) (width height : Z), ends (decode_12be_msb32 buf width height). Proof. intros; unfold decode_12be_msb32; et. Qed.
#[local] Hint Resolve ends_decode_12be_msb32 : ends.
Lemma ends_decode_12le_wcontrol : forall (buf : list Z) (width height : Z), ends (decode_12le_wcontrol buf width height). Proof. intros; unfold decode_12le_wcontrol; et. Qed.
#[local] Hint Resolve ends_decode_12le_wcontrol : ends.
Lemma ends_decode_12be_wcontrol : forall (buf : list Z) (width height : Z), ends (decode_12be_wcontrol buf width height). Proof. intros; unfold decode_12be_wcontrol; et. Qed.
#[local] Hint Resolve ends_decode_12be_wcontrol : ends.
Lemma ends_interlaced_rows : forall (buf second_field : list Z) (width height : Z), ends (interlaced_rows buf second_field width height). Proof. intros; unfold interlaced_rows; et. Qed.
#[local] Hint Resolve ends_interlaced_rows : ends.
Lemma ends_decode_12be_interlaced : forall (buf : list Z) (width height : Z), ends (decode_12be_interlaced buf width height). Proof. intros; unfold decode_12be_interlaced; et. Qed.
#[local] Hint Resolve ends_decode_12be_interlaced : ends.
Lemma ends_decode_12be_interlaced_unaligned : forall (buf : list Z) (width height : Z), ends (decode_12be_interlaced_unaligned buf width height). Proof. intros; unfold decode_12be_interlaced_unaligned; et. Qed.
#[local] Hint Resolve ends_decode_12be_interlaced_unaligned : ends.
Lemma ends_decode_12le : forall (buf : list Z) (width height : Z), ends (decode_12le buf width height). Proof. intros; unfold decode_12le; et. Qed.
#[local] Hint Resolve ends_decode_12le : ends.
Lemma ends_unpacked_line : forall (width : Z) (rd : list Z -> res Z) (out inb : list Z), (forall l, ends (rd l)) -> ends (unpacked_line width rd out inb). Proof. intros; unfold unpacked_line; et. Qed.
#[local] Hint Resolve ends_unpacked_line : ends.
Lemma ends_unpacked : forall (skip : Z) (rd : list Z -> res Z) (buf : list Z) (width height : Z), (forall l, ends (rd l)) -> ends (unpacked skip rd buf width height). Proof. intros; unfold unpacked; et. Qed.
#[local] Hint Resolve ends_unpacked : ends.
Lemma ends_decode_12le_unpacked : forall (buf : list Z) (width height : Z), ends (decode_12le_unpacked buf width height). Proof. intros; apply ends_unpacked; intros; et. Qed.
#[local] Hint Resolve ends_decode_12le_unpacked : ends.
Lemma ends_decode_12be_unpacked : forall (buf : list Z) (width height : Z), ends (decode_12be_unpacked buf width height). Proof. intros; apply ends_unpacked; intros; et. Qed.
#[local] Hint Resolve ends_decode_12be_unpacked : ends.
Lemma ends_decode_12be_unpacked_left_aligned : forall (buf : list Z) (width height : Z), ends (decode_12be_unpacked_left_aligned buf width height). Proof. intros; apply ends_unpacked; intros; et. Qed.
#[local] Hint Resolve ends_decode_12be_unpacked_left_aligned : ends.
Lemma ends_decode_12le_unpacked_left_aligned : forall (buf : list Z) (width height : Z), ends (decode_12le_unpacked_left_aligned buf width height). Proof. intros; apply ends_unpacked; intros; et. Qed.
#[local] Hint Resolve ends_decode_12le_unpacked_left_aligned : ends.
Lemma ends_decode_14le_unpacked : forall (buf : list Z) (width height : Z), ends (decode_14le_unpacked buf width height). Proof. intros; apply ends_unpacked; intros; et. Qed.
#[local] Hint Resolve ends_decode_14le_unpacked : ends.
Lemma ends_decode_14be_unpacked : forall (buf : list Z) (width height : Z), ends (decode_14be_unpacked buf width height). Proof. intros; apply ends_unpacked; intros; et. Qed.
#[local] Hint Resolve ends_decode_14be_unpacked : ends.
Lemma ends_decode_16le : forall (buf : list Z) (width height : Z), ends (decode_16le buf width height). Proof. intros; apply ends_unpacked; intros; et. Qed.
#[local] Hint Resolve ends_decode_16le : ends.
Lemma ends_decode_16le_skiplines : forall (buf : list Z) (width height : Z), ends (decode_16le_skiplines buf width height). Proof. intros; apply ends_unpacked; intros; et. Qed.
#[local] Hint Resolve ends_decode_16le_skiplines : ends.
Lemma ends_decode_16be : forall (buf : list Z) (width height : Z), ends (decode_16be buf width height). Proof. intros; apply ends_unpacked; intros; et. Qed.
#[local] Hint Resolve ends_decode_16be : ends.
End Ends2.
#[global] Hint Resolve ends_store ends_dither_line ends_decode_8bit_wtable ends_body_10le_lsb16 ends_decode_10le_lsb16 ends_body_10le ends_decode_10le ends_body_12be ends_body_12le ends_decode_12be ends_body_12be_msb16 ends_decode_12be_msb16 ends_decode_12le_16bitaligned ends_body_12be_msb32 ends_decode_12be_msb32 ends_decode_12le_wcontrol ends_decode_12be_wcontrol ends_interlaced_rows ends_decode_12be_interlaced ends_decode_12be_interlaced_unaligned ends_decode_12le ends_unpacked_line ends_unpacked ends_decode_12le_unpacked ends_decode_12be_unpacked ends_decode_12be_unpacked_left_aligned ends_decode_12le_unpacked_left_aligned ends_decode_14le_unpacked ends_decode_14be_unpacked ends_decode_16le ends_decode_16le_skiplines ends_decode_16be : ends.
