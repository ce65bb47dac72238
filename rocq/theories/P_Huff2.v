(** Proofs about Huffman tables: pointers, the 8-bit table, code words. *)
From Coq Require Import String ZArith List Bool Lia ZifyBool ZifyNat.
From Verif Require Import Base Pumps Huffman Spec_Bits Spec_Huffman P_Base P_Bits P_Huff1.
Import ListNotations.
Local Open Scope Z_scope.
Ltac Zify.zify_post_hook ::= Z.div_mod_to_equations.

Lemma znth_upd : forall l i v r j, upd l i v = Ok r -> 0 <= j ->
  znth r j = if j =? i then v else znth l j.
Proof.
  intros l i v r j H Hj. apply upd_inv in H. destruct H as [H1 H2]. subst r.
  rewrite znth_upd_nat by lia. destruct (j =? i) eqn:E; destruct (i =? j) eqn:E'; lia.
Qed.
Lemma zlen_upd : forall (l : list Z) i v r, upd l i v = Ok r -> zlen r = zlen l.
Proof. intros l i v r H. apply upd_inv in H. destruct H as [_ H]. subst r. apply zlen_upd_nat. Qed.
Lemma upd_exists : forall (l : list Z) i v, 0 <= i < zlen l -> exists r, upd l i v = Ok r.
Proof. intros l i v H. rewrite upd_ok by assumption. eauto. Qed.

(** Filling a range with one value. *)
Lemma fill_range : forall (n : nat) a l v, 0 <= a -> a + Z.of_nat n <= zlen l ->
  exists r, rfold (fun i nb => upd nb i v) (zrange a (a + Z.of_nat n)) l = Ok r /\ zlen r = zlen l /\
    forall j, 0 <= j -> znth r j = if (a <=? j) && (j <? a + Z.of_nat n) then v else znth l j.
Proof.
  induction n; intros a l v Ha Hl.
  - rewrite zrange_empty by lia. exists l. split; [reflexivity|]. split; [reflexivity|].
    intros j Hj. replace ((a <=? j) && (j <? a + Z.of_nat 0)) with false by lia. reflexivity.
  - rewrite zrange_cons by lia. cbn [rfold].
    destruct (upd_exists l a v ltac:(lia)) as [l1 E1]. rewrite E1. cbn [bind].
    replace (a + Z.of_nat (S n)) with (a + 1 + Z.of_nat n) by lia.
    destruct (IHn (a + 1) l1 v ltac:(lia)) as [r [E [L Z]]]; [rewrite (zlen_upd _ _ _ _ E1); lia|].
    exists r. split; [exact E|]. split; [rewrite L; apply (zlen_upd _ _ _ _ E1)|].
    intros j Hj. rewrite Z by assumption. rewrite (znth_upd _ _ _ _ _ E1) by assumption.
    destruct (j =? a) eqn:Ea.
    + replace ((a + 1 <=? j) && (j <? a + 1 + Z.of_nat n)) with false by lia.
      replace ((a <=? j) && (j <? a + 1 + Z.of_nat n)) with true by lia. reflexivity.
    + replace ((a <=? j) && (j <? a + 1 + Z.of_nat n)) with ((a + 1 <=? j) && (j <? a + 1 + Z.of_nat n)) by lia.
      reflexivity.
Qed.

Lemma number_firstn : forall l m bs, (l <= m)%nat -> (m <= length bs)%nat ->
  number (firstn l bs) = number (firstn m bs) / 2 ^ Z.of_nat (m - l).
Proof.
  intros l m bs H1 H2.
  rewrite <- (firstn_skipn l (firstn m bs)), firstn_firstn, Nat.min_l by assumption.
  rewrite number_app, skipn_length, firstn_length_le by assumption.
  pose proof (number_range (skipn l (firstn m bs))) as R. rewrite skipn_length, firstn_length_le in R by assumption.
  rewrite Z.div_add_l, Z.div_small by (try assumption; pose proof (pow2_pos_nat (m - l)); lia). lia.
Qed.
Lemma number_firstn_S : forall l bs, (S l <= length bs)%nat ->
  number (firstn (S l) bs) = 2 * number (firstn l bs) + Z.b2z (nth l bs false).
Proof.
  intros l bs H.
  assert (E : firstn (S l) bs = firstn l bs ++ [nth l bs false]).
  { revert bs H. induction l; intros [|b bs] H; cbn [length] in H; try lia; [reflexivity|].
    change (firstn (S (S l)) (b :: bs)) with (b :: firstn (S l) bs).
    rewrite IHl by lia. reflexivity. }
  rewrite E, number_app. cbn [length number]. change (2 ^ Z.of_nat 1) with 2. change (2 ^ Z.of_nat 0) with 1. lia.
Qed.

Section Table.
Variable bits : list Z.
Hypothesis Hlen : zlen bits = 17.
Hypothesis Hpos : Forall (fun c => 0 <= c) bits.
Hypothesis Hkraft : En bits 16 <= 2 ^ 16.
Hypothesis Hcount : Fn bits 16 <= 256.
Notation cn := (cn bits).
Notation Fn := (Fn bits).
Notation En := (En bits).

(** ** Figure F.15 *)
Definition pointers (vp mn mx : list Z) (n : nat) : Prop :=
  forall m, (m < n)%nat ->
    (0 < cn (S m) -> znth vp (Z.of_nat (S m)) = Fn m /\ znth mn (Z.of_nat (S m)) = 2 * En m
                     /\ znth mx (Z.of_nat (S m)) = En (S m) - 1) /\
    (cn (S m) = 0 -> znth vp (Z.of_nat (S m)) = 255 /\ znth mx (Z.of_nat (S m)) = -1).

Lemma pointers_ok : forall vp0 mn0 mx0, zlen vp0 = 17 -> zlen mn0 = 17 -> zlen mx0 = 18 ->
  exists vp mn mx, huff_pointers bits (hc bits) vp0 mn0 mx0 = Ok (vp, mn, mx) /\
    zlen vp = 17 /\ zlen mn = 17 /\ zlen mx = 18 /\ pointers vp mn mx 16 /\ znth mx 17 = 1048575.
Proof.
  intros vp0 mn0 mx0 L1 L2 L3. unfold huff_pointers.
  destruct (upd_exists mn0 0 0 ltac:(lia)) as [mn1 E1]. rewrite E1, bind_Ok.
  destruct (upd_exists mx0 0 0 ltac:(lia)) as [mx1 E2]. rewrite E2, bind_Ok.
  apply zlen_upd in E1, E2. rewrite L2 in E1. rewrite L3 in E2. clear L2 L3 mn0 mx0.
  assert (G : forall n, (n <= 16)%nat -> exists vp mn mx,
    rfold (fun l '(vp, mn, mx, p) =>
      b <- get bits l ;;
      '(vp', mn', mx', p') <-
        (if 0 <? b then
           vp' <- upd vp l (as_i16 p) ;;
           c <- get (hc bits) p ;; mn' <- upd mn l c ;;
           c' <- get (hc bits) (p + b - 1) ;; mx' <- upd mx l c' ;;
           Ok (vp', mn', mx', p + b)
         else
           vp' <- upd vp l 255 ;;
           mx' <- upd mx l (-1) ;;
           Ok (vp', mn, mx', p)) ;;
      if 256 <? p' then Err too_long else Ok (vp', mn', mx', p'))
    (zrange 1 (1 + Z.of_nat n)) (vp0, mn1, mx1, 0) = Ok (vp, mn, mx, Fn n) /\
    zlen vp = 17 /\ zlen mn = 17 /\ zlen mx = 18 /\ pointers vp mn mx n).
  { induction n; intros Hn.
    - exists vp0, mn1, mx1. split; [reflexivity|]. split; [assumption|]. split; [assumption|]. split; [assumption|].
      intros m Hm. lia.
    - destruct (IHn ltac:(lia)) as [vp [mn [mx [E [Lv [Ln [Lx P]]]]]]].
      replace (1 + Z.of_nat (S n)) with ((1 + Z.of_nat n) + 1) by lia.
      rewrite zrange_snoc by lia. rewrite rfold_app, E, bind_Ok. cbn [rfold].
      rewrite get_ok by lia. cbn [bind].
      replace (1 + Z.of_nat n) with (Z.of_nat (S n)) by lia. fold (cn (S n)).
      pose proof (cn_pos bits Hpos (S n)) as Hc.
      pose proof (Fn_mono bits Hpos (S n) 16 Hn) as HF. change (Fn (S n)) with (Fn n + cn (S n)) in HF.
      pose proof (Fn_pos bits Hpos n) as HF0.
      destruct (0 <? cn (S n)) eqn:Ec.
      + destruct (upd_exists vp (Z.of_nat (S n)) (as_i16 (Fn n)) ltac:(lia)) as [vp' Ev]. rewrite Ev. cbn [bind].
        pose proof (hc_get bits Hpos n 0 ltac:(lia) ltac:(lia)) as G0. rewrite !Z.add_0_r in G0.
        rewrite G0. cbn [bind].
        destruct (upd_exists mn (Z.of_nat (S n)) (2 * En n) ltac:(lia)) as [mn' Em]. rewrite Em. cbn [bind].
        replace (Fn n + cn (S n) - 1) with (Fn n + (cn (S n) - 1)) by lia.
        rewrite (hc_get bits Hpos n) by lia. cbn [bind].
        destruct (upd_exists mx (Z.of_nat (S n)) (2 * En n + (cn (S n) - 1)) ltac:(lia)) as [mx' Ex]. rewrite Ex. cbn [bind].
        replace (256 <? Fn n + cn (S n)) with false by lia. cbn [bind].
        exists vp', mn', mx'. split; [reflexivity|].
        rewrite (zlen_upd _ _ _ _ Ev), (zlen_upd _ _ _ _ Em), (zlen_upd _ _ _ _ Ex).
        split; [assumption|]. split; [assumption|]. split; [assumption|].
        intros m Hm. rewrite (znth_upd _ _ _ _ _ Ev), (znth_upd _ _ _ _ _ Em), (znth_upd _ _ _ _ _ Ex) by lia.
        destruct (Z.of_nat (S m) =? Z.of_nat (S n)) eqn:Emn; [|apply P; lia].
        assert (m = n) by lia. subst m. split; intros Hcc; [|lia].
        split; [|split; [reflexivity|change (En (S n)) with (2 * En n + cn (S n)); lia]].
        unfold as_i16, swrap. change (2 ^ (16 - 1)) with 32768. change (2 ^ 16) with 65536. rewrite Z.mod_small; lia.
      + destruct (upd_exists vp (Z.of_nat (S n)) 255 ltac:(lia)) as [vp' Ev]. rewrite Ev. cbn [bind].
        destruct (upd_exists mx (Z.of_nat (S n)) (-1) ltac:(lia)) as [mx' Ex]. rewrite Ex. cbn [bind].
        replace (256 <? Fn n) with false by lia.
        assert (cn (S n) = 0) by lia.
        exists vp', mn, mx'.
        split; [change (Fn (S n)) with (Fn n + cn (S n)); replace (cn (S n)) with 0 by lia; rewrite Z.add_0_r; reflexivity|].
        rewrite (zlen_upd _ _ _ _ Ev), (zlen_upd _ _ _ _ Ex).
        split; [assumption|]. split; [assumption|]. split; [assumption|].
        intros m Hm. rewrite (znth_upd _ _ _ _ _ Ev), (znth_upd _ _ _ _ _ Ex) by lia.
        destruct (Z.of_nat (S m) =? Z.of_nat (S n)) eqn:Emn; [|apply P; lia].
        assert (m = n) by lia. subst m. split; intros Hcc; [lia|]. split; reflexivity. }
  destruct (G 16%nat (le_n _)) as [vp [mn [mx [E [Lv [Ln [Lx P]]]]]]].
  change (1 + Z.of_nat 16) with 17 in E. rewrite E. cbn [bind].
  destruct (upd_exists mx 17 1048575 ltac:(lia)) as [mx' Ex]. rewrite Ex. cbn [bind].
  exists vp, mn, mx'. split; [reflexivity|]. rewrite (zlen_upd _ _ _ _ Ex).
  split; [assumption|]. split; [assumption|]. split; [assumption|]. split.
  - intros m Hm. rewrite (znth_upd _ _ _ _ _ Ex) by lia.
    replace (Z.of_nat (S m) =? 17) with false by lia. apply P. lia.
  - rewrite (znth_upd _ _ _ _ _ Ex) by lia. reflexivity.
Qed.

(** ** Code words *)
(** The bits start with word [i] of length [n+1]. *)
Definition hit (bs : list bool) (n : nat) (i : Z) : Prop :=
  (n < 16)%nat /\ (S n <= length bs)%nat /\ 0 <= i < cn (S n) /\ number (firstn (S n) bs) = 2 * En n + i.

Lemma sep : forall bs l l', (l < l')%nat -> (l' <= length bs)%nat ->
  2 * En (l' - 1) <= number (firstn l' bs) -> En l <= number (firstn l bs).
Proof.
  intros bs l l' H1 H2 H3. rewrite (number_firstn l l') by lia.
  pose proof (En_mono bits Hpos l (l' - 1) ltac:(lia)) as HM.
  replace (l' - l)%nat with (S (l' - 1 - l)) by lia. rewrite pow2_S.
  pose proof (pow2_pos_nat (l' - 1 - l)).
  apply Z.div_le_lower_bound; [lia|]. lia.
Qed.
Lemma hit_sep : forall bs n i l, hit bs n i -> (l <= n)%nat -> En l <= number (firstn l bs).
Proof. intros bs n i l [H1 [H2 [H3 H4]]] Hl. apply (sep bs l (S n)); try lia. replace (S n - 1)%nat with n by lia. lia. Qed.
Lemma hit_unique : forall bs n i n' i', hit bs n i -> hit bs n' i' -> n = n' /\ i = i'.
Proof.
  assert (G : forall bs n i n' i', hit bs n i -> hit bs n' i' -> (n <= n')%nat -> n = n').
  { intros bs n i n' i' H H' L. destruct (Nat.eq_dec n n') as [E|E]; [assumption|].
    pose proof (hit_sep bs n' i' (S n) H' ltac:(lia)) as S1. destruct H as [_ [_ [A B]]].
    cbn [P_Huff1.En] in S1. lia. }
  intros bs n i n' i' H H'.
  assert (n = n') by (destruct (Nat.le_ge_cases n n'); [eauto|symmetry; eauto]). subst n'.
  split; [reflexivity|]. destruct H as [_ [_ [_ A]]], H' as [_ [_ [_ B]]]. lia.
Qed.
Lemma no_hit : forall bs m, (m <= 16)%nat -> (m <= length bs)%nat ->
  (forall n i, (n < m)%nat -> ~ hit bs n i) -> En m <= number (firstn m bs).
Proof.
  induction m; intros H1 H2 H3; [cbn; lia|].
  pose proof (IHm ltac:(lia) ltac:(lia)) as IH. specialize (IH (fun n i L => H3 n i ltac:(lia))).
  rewrite number_firstn_S in * by assumption.
  set (b := Z.b2z (nth m bs false)) in *. assert (0 <= b <= 1) by (unfold b; destruct (nth m bs false); cbn; lia).
  destruct (Z_lt_ge_dec (2 * number (firstn m bs) + b) (En (S m))) as [L|L]; [|lia].
  exfalso. apply (H3 m (2 * number (firstn m bs) + b - 2 * En m) ltac:(lia)).
  change (En (S m)) with (2 * En m + cn (S m)) in L.
  split; [lia|]. split; [lia|]. split; [lia|]. rewrite number_firstn_S by assumption. fold b. lia.
Qed.
(** Every bit string starts with a word or with none. *)
Lemma hit_dec : forall bs m, (m <= 16)%nat -> (m <= length bs)%nat ->
  (exists n i, (n < m)%nat /\ hit bs n i) \/ (forall n i, (n < m)%nat -> ~ hit bs n i).
Proof.
  induction m; intros H1 H2; [right; intros; lia|].
  destruct (IHm ltac:(lia) ltac:(lia)) as [[n [i [A B]]]|N]; [left; exists n, i; split; [lia|assumption]|].
  set (i := number (firstn (S m) bs) - 2 * En m).
  destruct ((0 <=? i) && (i <? cn (S m))) eqn:E.
  - left. exists m, i. split; [lia|]. split; [lia|]. split; [assumption|]. split; [lia|unfold i; lia].
  - right. intros n i' L H. destruct (Nat.eq_dec n m) as [->|D]; [|apply (N n i'); [lia|assumption]].
    destruct H as [_ [_ [A B]]]. unfold i in E. lia.
Qed.
Lemma hit_prefix : forall a b n i, hit a n i -> (S n <= length b)%nat -> firstn (S n) a = firstn (S n) b -> hit b n i.
Proof. intros a b n i [H1 [H2 [H3 H4]]] L E. split; [assumption|]. split; [assumption|]. split; [assumption|]. rewrite <- E. assumption. Qed.
Lemma hit_firstn : forall a n i m, (S n <= m)%nat -> hit a n i -> hit (firstn m a) n i.
Proof.
  intros a n i m L H. eapply hit_prefix; [exact H|destruct H as [_ [A _]]; rewrite firstn_length; lia|].
  rewrite firstn_firstn, Nat.min_l by assumption. reflexivity.
Qed.

(** Symbol number of a class. *)
Lemma class_of : forall q, 0 <= q < Fn 16 -> exists n i, (n < 16)%nat /\ 0 <= i < cn (S n) /\ q = Fn n + i.
Proof.
  assert (G : forall m q, (m <= 16)%nat -> 0 <= q < Fn m -> exists n i, (n < m)%nat /\ 0 <= i < cn (S n) /\ q = Fn n + i).
  { induction m; intros q Hm Hq; cbn [P_Huff1.Fn] in Hq; [lia|].
    destruct (Z_lt_ge_dec q (Fn m)) as [L|L].
    - destruct (IHm q ltac:(lia) ltac:(lia)) as [n [i [A B]]]. exists n, i. split; [lia|assumption].
    - exists m, (q - Fn m). lia. }
  intros q Hq. apply (G 16%nat); [lia|assumption].
Qed.
Lemma class_lt : forall n i n' i', (n < n')%nat -> (n' <= 16)%nat -> i < cn (S n) -> 0 <= i' -> Fn n + i < Fn n' + i'.
Proof.
  intros n i n' i' H H' Hi Hi'. pose proof (Fn_mono bits Hpos (S n) n' ltac:(lia)) as F.
  change (Fn (S n)) with (Fn n + cn (S n)) in F. lia.
Qed.
Lemma class_inj : forall n i n' i', (n < 16)%nat -> (n' < 16)%nat -> 0 <= i < cn (S n) -> 0 <= i' < cn (S n') ->
  Fn n + i = Fn n' + i' -> n = n' /\ i = i'.
Proof.
  intros n i n' i' A B C D E. destruct (Nat.lt_total n n') as [L|[L|L]].
  - pose proof (class_lt n i n' i' L ltac:(lia) ltac:(lia) ltac:(lia)). lia.
  - subst. lia.
  - pose proof (class_lt n' i' n i L ltac:(lia) ltac:(lia) ltac:(lia)). lia.
Qed.

(** ** The 8-bit table *)
Variable vals : list Z.
Hypothesis Hvals : zlen vals = 256.
Hypothesis Hbytes : bytes vals.
Variable M : Mode.

Definition entry8 (n : nat) (i : Z) : Z := Z.of_nat (S n) + 16 * znth vals (Fn n + i).
Definition numbits_upto (p : Z) (nb : list Z) : Prop :=
  zlen nb = 256 /\ forall x, 0 <= x < 256 ->
    (forall n i, (n < 8)%nat -> Fn n + i < p -> hit (zbits 8 x) n i -> znth nb x = entry8 n i) /\
    ((forall n i, (n < 8)%nat -> Fn n + i < p -> ~ hit (zbits 8 x) n i) -> znth nb x = 0).

Lemma hit8 : forall x n i, 0 <= x < 256 -> (n < 8)%nat ->
  (hit (zbits 8 x) n i <-> 0 <= i < cn (S n) /\ x / 2 ^ (7 - Z.of_nat n) = 2 * En n + i).
Proof.
  intros x n i Hx Hn. unfold hit. rewrite zbits_length.
  assert (EF : firstn (S n) (zbits 8 x) = zbits (S n) (x / 2 ^ Z.of_nat (7 - n)))
    by (replace 8%nat with (S n + (7 - n))%nat by lia; apply firstn_zbits).
  rewrite EF, number_zbits.
  replace (Z.of_nat (7 - n)) with (7 - Z.of_nat n) by lia.
  assert (E : x / 2 ^ (7 - Z.of_nat n) < 2 ^ Z.of_nat (S n)).
  { apply Z.div_lt_upper_bound; [apply pow2_pos; lia|].
    rewrite <- Z.pow_add_r by lia. replace (7 - Z.of_nat n + Z.of_nat (S n)) with 8 by lia. lia. }
  assert (0 <= x / 2 ^ (7 - Z.of_nat n)) by (apply Z.div_pos; [lia|apply pow2_pos; lia]).
  rewrite Z.mod_small by lia. split.
  - intros [_ [_ [A B]]]. split; assumption.
  - intros [A B]. split; [lia|]. split; [lia|]. split; assumption.
Qed.

Definition hit_any (n : nat) (i : Z) : Prop := (n < 16)%nat /\ 0 <= i < cn (S n).
Lemma entry8_value : forall n i, (n < 16)%nat -> 0 <= i < cn (S n) ->
  Z.lor (Z.of_nat (S n)) (as_u32 (Z.shiftl (as_u32 (as_i32 (znth vals (Fn n + i)))) 4)) =
  entry8 n i \/ (8 <= n)%nat.
Proof.
  intros n i Hn Hi. destruct (Nat.le_gt_cases 8 n) as [L|L]; [right; assumption|left].
  pose proof (Fn_mono bits Hpos (S n) 16 Hn) as HF. change (Fn (S n)) with (Fn n + cn (S n)) in HF.
  pose proof (Fn_pos bits Hpos n).
  pose proof (znth_Forall byte vals (Fn n + i) Hbytes ltac:(lia)) as Hb. unfold byte in Hb.
  unfold entry8. set (v := znth vals (Fn n + i)) in *.
  assert (E1 : as_i32 v = v).
  { unfold as_i32, swrap. change (2 ^ (32 - 1)) with 2147483648. change (2 ^ 32) with 4294967296. rewrite Z.mod_small; lia. }
  assert (E2 : as_u32 v = v) by (unfold as_u32; change (2 ^ 32) with 4294967296; rewrite Z.mod_small; lia).
  rewrite E1, E2, Z.shiftl_mul_pow2 by lia. change (2 ^ 4) with 16.
  assert (E3 : as_u32 (v * 16) = v * 16) by (unfold as_u32; change (2 ^ 32) with 4294967296; rewrite Z.mod_small; lia).
  rewrite E3, Z.lor_comm. change 16 with (2 ^ 4). rewrite lor_mul_add by (change (2 ^ 4) with 16; lia). lia.
Qed.

Lemma numbits_ok : exists nb, huff_numbits (hs bits) (hc bits) vals (Fn 16) (zeros 256) = Ok nb /\ numbits_upto (Fn 16) nb.
Proof.
  unfold huff_numbits.
  pose proof (Fn_pos bits Hpos 16) as HF16.
  apply (rfold_zrange _ (fun p nb => numbits_upto p nb)); [lia| |].
  - split; [reflexivity|]. intros x Hx. split; [|intros; apply znth_zeros].
    intros n i Hn Hi [_ [_ [A _]]]. pose proof (Fn_pos bits Hpos n). lia.
  - intros p nb Hp [Lnb P]. destruct (class_of p ltac:(lia)) as [n [i [Hn [Hi Ep]]]]. subst p.
    rewrite (hs_get_class bits Hpos n i Hn Hi). cbn [bind].
    assert (Hskip : forall n' i', hit_any n' i' -> Fn n' + i' < Fn n + i + 1 -> ~ (Fn n' + i' < Fn n + i) -> n' = n /\ i' = i).
    { intros n' i' [H1 H2] H3 H4. apply class_inj; try assumption; lia. }
    destruct (Z.of_nat (S n) <=? 8) eqn:E8.
    + rewrite get_ok by lia. cbn [bind]. rewrite (hc_get bits Hpos n i Hn Hi). cbn [bind].
      pose proof (En_bound bits Hpos Hkraft (S n) ltac:(lia)) as HE. pose proof (En_pos bits Hpos n) as HE0.
      change (En (S n)) with (2 * En n + cn (S n)) in HE.
      set (s := 7 - Z.of_nat n). assert (Hs : 8 - Z.of_nat (S n) = s) by (unfold s; lia). rewrite Hs.
      assert (H8 : 2 ^ s * 2 ^ Z.of_nat (S n) = 256).
      { rewrite <- Z.pow_add_r by lia. replace (s + Z.of_nat (S n)) with 8 by lia. reflexivity. }
      pose proof (pow2_pos s ltac:(lia)) as Hps.
      set (c := 2 * En n + i) in *.
      assert (Hll : 0 <= c * 2 ^ s /\ c * 2 ^ s + 2 ^ s <= 256) by nia.
      rewrite shl_u_ok by (change (2 ^ 16) with 65536; lia). cbn [bind].
      assert (Hul : (if Z.of_nat (S n) <? 8 then Z.lor (c * 2 ^ s) (as_i32 (huff_bitmask (24 + Z.of_nat (S n)))) else c * 2 ^ s)
                    = c * 2 ^ s + 2 ^ s - 1).
      { destruct (Z.of_nat (S n) <? 8) eqn:E7.
        - unfold huff_bitmask. replace (32 - (24 + Z.of_nat (S n))) with s by lia.
          assert (as_i32 (2 ^ s - 1) = 2 ^ s - 1) as ->.
          { unfold as_i32, swrap. change (2 ^ (32 - 1)) with 2147483648. change (2 ^ 32) with 4294967296. rewrite Z.mod_small; lia. }
          rewrite lor_mul_add by lia. lia.
        - replace s with 0 by lia. change (2 ^ 0) with 1. lia. }
      rewrite Hul. replace ((256 <? c * 2 ^ s + 2 ^ s - 1) || (c * 2 ^ s + 2 ^ s - 1 <? c * 2 ^ s)) with false by lia.
      replace (c * 2 ^ s + 2 ^ s - 1 + 1) with (c * 2 ^ s + Z.of_nat (Z.to_nat (2 ^ s))) by lia.
      destruct (entry8_value n i Hn Hi) as [Ev|Ev]; [|lia]. rewrite Ev.
      destruct (fill_range (Z.to_nat (2 ^ s)) (c * 2 ^ s) nb (entry8 n i) ltac:(lia) ltac:(lia)) as [r [Er [Lr Zr]]].
      rewrite Er. exists r. split; [reflexivity|]. split; [lia|].
      assert (Hrange : forall x, 0 <= x < 256 -> ((c * 2 ^ s <=? x) && (x <? c * 2 ^ s + Z.of_nat (Z.to_nat (2 ^ s))) = true
                       <-> hit (zbits 8 x) n i)).
      { intros x Hx. rewrite hit8 by lia. rewrite Z2Nat.id by lia. fold s. fold c. split.
        - intros H. split; [lia|]. symmetry. apply Z.div_unique with (x - c * 2 ^ s); lia.
        - intros [_ H]. pose proof (Z.div_mod x (2 ^ s) ltac:(lia)). pose proof (Z.mod_pos_bound x (2 ^ s) ltac:(lia)).
          rewrite H in *. nia. }
      intros x Hx. rewrite Zr by lia. specialize (Hrange x Hx). specialize (P x Hx). destruct P as [P1 P2].
      destruct ((c * 2 ^ s <=? x) && (x <? c * 2 ^ s + Z.of_nat (Z.to_nat (2 ^ s)))) eqn:Ein.
      * assert (H : hit (zbits 8 x) n i) by (apply Hrange; reflexivity). split.
        -- intros n' i' _ _ H'. destruct (hit_unique _ _ _ _ _ H H') as [-> ->]. reflexivity.
        -- intros H'. exfalso. apply (H' n i); [lia|lia|assumption].
      * assert (H : ~ hit (zbits 8 x) n i) by (intros H; apply Hrange in H; discriminate). split.
        -- intros n' i' Hn' Hlt H'. apply P1; [assumption| |assumption].
           destruct (Z_lt_ge_dec (Fn n' + i') (Fn n + i)) as [L|L]; [assumption|exfalso].
           destruct (Hskip n' i'); [split; [lia|apply H']|lia|lia|]. subst. contradiction.
        -- intros H'. apply P2. intros n' i' Hn' Hlt. apply H'; lia.
    + exists nb. split; [reflexivity|]. split; [assumption|]. intros x Hx. destruct (P x Hx) as [P1 P2]. split.
      * intros n' i' Hn' Hlt H'. apply P1; [assumption| |assumption].
        destruct (Z_lt_ge_dec (Fn n' + i') (Fn n + i)) as [L|L]; [assumption|exfalso].
        destruct (Hskip n' i'); [split; [lia|apply H']|lia|lia|]. lia.
      * intros H'. apply P2. intros n' i' Hn' Hlt. apply H'; lia.
Qed.
End Table.
