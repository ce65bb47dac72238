(** Proofs about Canon CRW: the code tables. *)
From Coq Require Import String ZArith List Bool Lia ZifyBool ZifyNat.
From Verif Require Import Base Bytes Pumps Dec_Crw Spec_Bits Spec_Stream Spec_Huffman Spec_Ljpeg
  P_Base P_Bits P_Pumps P_Huff1 P_Huff2 P_Huff3 P_Huff5.
Import ListNotations.
Local Open Scope Z_scope.
Ltac Zify.zify_post_hook ::= Z.div_mod_to_equations.

Lemma crw_max_range : forall cs, 0 <= crw_max cs <= zlen cs.
Proof. induction cs as [|c t IH]; cbn [crw_max]; [cbn; lia|]. rewrite zlen_cons. destruct (crw_max t =? 0) eqn:E, (c =? 0); lia. Qed.
Lemma crw_max_above : forall cs i, crw_max cs <= i -> znth cs i = 0.
Proof.
  induction cs as [|c t IH]; intros i Hi; cbn [crw_max] in Hi.
  - unfold znth. destruct (Z.to_nat i); reflexivity.
  - pose proof (crw_max_range t). destruct (crw_max t =? 0) eqn:E.
    + destruct (c =? 0) eqn:C.
      * destruct (i =? 0) eqn:Q; [replace i with 0 by lia; rewrite znth_cons_0; lia|]. rewrite znth_cons_S by lia. apply IH. lia.
      * rewrite znth_cons_S by lia. apply IH. lia.
    + rewrite znth_cons_S by lia. apply IH. lia.
Qed.
Lemma get_nth : forall {A} (l : list A) i d, 0 <= i < zlen l -> get l i = Ok (nth (Z.to_nat i) l d).
Proof.
  intros A l i d H. unfold get. replace ((0 <=? i) && (i <? zlen l)) with true by lia.
  destruct (nth_error l (Z.to_nat i)) as [x|] eqn:E; [rewrite (nth_error_nth _ _ d E); reflexivity|]. apply nth_error_None in E. unfold zlen in H. lia.
Qed.
(** Filling a range. *)
Lemma crw_fill_range : forall max len leaf h tbl, 0 <= h -> 0 <= len <= max -> h + 2 ^ (max - len) <= 2 ^ max -> zlen tbl = 2 ^ max ->
  exists tbl', crw_fill max len leaf (h, tbl) = Ok (h + 2 ^ (max - len), tbl') /\ zlen tbl' = 2 ^ max /\
    forall c, 0 <= c -> nth (Z.to_nat c) tbl' (0, 0) = if (h <=? c) && (c <? h + 2 ^ (max - len)) then (len, leaf) else nth (Z.to_nat c) tbl (0, 0).
Proof.
  intros max len leaf h tbl Hh Hl Hr Ht. unfold crw_fill.
  destruct (rfold_zrange (fun (_ : Z) '(h, tbl) => if Z.leb h (2 ^ max) then tbl <- upd tbl h (len, leaf) ;; Ok (h + 1, tbl) else Ok (h, tbl))
    (fun j '(h', tbl') => h' = h + j /\ zlen tbl' = 2 ^ max /\ forall c, 0 <= c -> nth (Z.to_nat c) tbl' (0, 0) = if (h <=? c) && (c <? h + j) then (len, leaf) else nth (Z.to_nat c) tbl (0, 0))
    0 (2 ^ (max - len)) (h, tbl)) as [[h' tbl'] [E [-> [L V]]]].
  - assert (0 < 2 ^ (max - len)) by (apply Z.pow_pos_nonneg; lia). lia.
  - split; [lia|]. split; [exact Ht|]. intros c Hc. replace ((h <=? c) && (c <? h + 0)) with false by lia. reflexivity.
  - intros j [h' tbl'] Hj [-> [L V]]. replace (h + j <=? 2 ^ max) with true by lia. rewrite upd_ok by lia. cbn [bind].
    eexists. split; [reflexivity|]. split; [lia|]. split; [rewrite zlen_upd_nat; exact L|]. intros c Hc.
    destruct (c =? h + j) eqn:Q.
    + replace c with (h + j) by lia. replace ((h <=? h + j) && (h + j <? h + (j + 1))) with true by lia.
      apply upd_nat_nth_same. unfold zlen in L. lia.
    + rewrite upd_nat_nth_other by lia. rewrite V by lia. replace ((h <=? c) && (c <? h + (j + 1))) with ((h <=? c) && (c <? h + j)) by lia. reflexivity.
  - exists tbl'. rewrite E. split; [reflexivity|]. split; [exact L|exact V].
Qed.

Section Table.
Variables (counts syms more : list Z).
Hypothesis Hc : code_table counts.
Hypothesis Hsl : length syms = length (lengths counts).
Notation bits := (0 :: counts).
Notation cn := (cn bits).
Notation Fn := (Fn bits).
Notation En := (En bits).
Notation ls := (lengths counts).
Notation L := (Z.to_nat (crw_max counts)).
Notation source := (counts ++ syms ++ more).

Lemma counts_len : zlen counts = 16.
Proof. destruct Hc as [H _]. unfold zlen. lia. Qed.
Lemma L_le : (L <= 16)%nat.
Proof. pose proof (crw_max_range counts). rewrite counts_len in *. lia. Qed.
Lemma cn_counts : forall n, cn (S n) = znth counts (Z.of_nat n).
Proof. intros n. unfold P_Huff1.cn, znth. rewrite !Nat2Z.id. reflexivity. Qed.
Lemma cn_L : forall n, 0 < cn (S n) -> (S n <= L)%nat.
Proof.
  intros n H. rewrite cn_counts in H. destruct (Z_lt_ge_dec (Z.of_nat n) (crw_max counts)) as [X|X]; [lia|].
  rewrite crw_max_above in H by lia. lia.
Qed.
Lemma source_count : forall n, (n < 16)%nat -> get source (Z.of_nat n) = Ok (cn (S n)).
Proof. intros n Hn. pose proof counts_len. rewrite get_app_l by lia. rewrite get_ok by lia. rewrite cn_counts. reflexivity. Qed.
Lemma source_sym : forall q, 0 <= q < Fn 16 -> get source (16 + q) = Ok (znth syms q).
Proof.
  intros q Hq. pose proof counts_len. rewrite get_app_r by lia. rewrite (hnumber counts Hc) in Hq.
  replace (16 + q - zlen counts) with q by lia. rewrite get_app_l by (unfold zlen; lia). apply get_ok. unfold zlen. lia.
Qed.
(** The entries of the words before number [q]. *)
Definition entries (q : Z) (tbl : list (Z * Z)) : Prop :=
  zlen tbl = 2 ^ Z.of_nat L /\
  forall n i c, (n < 16)%nat -> 0 <= i < cn (S n) -> Fn n + i < q -> 0 <= c < 2 ^ Z.of_nat L ->
    c / 2 ^ (Z.of_nat L - Z.of_nat (S n)) = 2 * En n + i -> nth (Z.to_nat c) tbl (0, 0) = (Z.of_nat (S n), znth syms (Fn n + i)).
Lemma words_order : forall n i N I, (n < 16)%nat -> (N < 16)%nat -> (S N <= L)%nat -> 0 <= i < cn (S n) -> 0 <= I -> Fn n + i < Fn N + I -> I <= cn (S N) ->
  (2 * En n + i + 1) * 2 ^ (Z.of_nat L - Z.of_nat (S n)) <= (2 * En N + I) * 2 ^ (Z.of_nat L - Z.of_nat (S N)).
Proof.
  intros n i N I Hn HN HL Hi HI Hlt HI'. pose proof (hpos counts Hc) as Hp. pose proof (cn_L n ltac:(lia)) as HnL.
  assert (n <= N)%nat as Hle.
  { destruct (Nat.le_gt_cases n N) as [X|X]; [exact X|]. pose proof (Fn_mono bits Hp (S N) n ltac:(lia)) as F. cbn [P_Huff1.Fn] in F. lia. }
  pose proof (Z.pow_pos_nonneg 2 (Z.of_nat L - Z.of_nat (S N)) ltac:(lia) ltac:(lia)) as P2.
  destruct (Nat.eq_dec n N) as [-> |Hne].
  - apply Z.mul_le_mono_nonneg_r; lia.
  - pose proof (En_mono bits Hp (S n) N ltac:(lia)) as EM. cbn [P_Huff1.En] in EM.
    replace (Z.of_nat L - Z.of_nat (S n)) with (Z.of_nat (N - S n) + Z.succ (Z.of_nat L - Z.of_nat (S N))) by lia.
    rewrite Z.pow_add_r, Z.pow_succ_r by lia.
    pose proof (Z.pow_pos_nonneg 2 (Z.of_nat (N - S n)) ltac:(lia) ltac:(lia)) as P1.
    set (a := 2 ^ Z.of_nat (N - S n)) in *. set (b := 2 ^ (Z.of_nat L - Z.of_nat (S N))) in *.
    replace ((2 * En n + i + 1) * (a * (2 * b))) with (2 * (a * (2 * En n + i + 1)) * b) by ring.
    apply Z.mul_le_mono_nonneg_r; [lia|]. nia.
Qed.

Lemma crw_table_built : exists t, crw_table source = Ok t /\ ct_nbits t = Z.of_nat L /\ entries (Fn 16) (ct_tbl t).
Proof.
  pose proof counts_len as HC. pose proof (hpos counts Hc) as Hp. pose proof L_le as HL. pose proof (crw_max_range counts) as HR.
  unfold crw_table. cbv zeta.
  assert (Ef : firstn 16 source = counts). { destruct Hc as [H _]. rewrite <- H. rewrite firstn_app, Nat.sub_diag, firstn_all, firstn_O, app_nil_r. reflexivity. }
  rewrite Ef. replace (crw_max counts) with (Z.of_nat L) by lia.
  destruct (rfold_zrange
    (fun len st =>
      n <- get source (len - 1) ;;
      rfold (fun _ '(pos, h, tbl) =>
        leaf <- get source pos ;;
        '(h, tbl) <- crw_fill (Z.of_nat L) len leaf (h, tbl) ;;
        Ok (pos + 1, h, tbl)) (zrange 0 n) st)
    (fun len '(pos, h, tbl) => let n := Z.to_nat (len - 1) in pos = 16 + Fn n /\ h = En n * 2 ^ (Z.of_nat L - Z.of_nat n) /\ entries (Fn n) tbl)
    1 (Z.of_nat L + 1) (16, 0, repeat (0, 0) (Z.to_nat (2 ^ Z.of_nat L)))) as [[[pos h] tbl] [E [_ [_ T]]]].
  - lia.
  - cbn zeta. split; [cbn; lia|]. split; [cbn; lia|]. split.
    + rewrite zlen_repeat. assert (0 < 2 ^ Z.of_nat L) by (apply Z.pow_pos_nonneg; lia). lia.
    + intros n i c Hn Hi Hq. pose proof (Fn_pos bits Hp n). cbn in Hq. lia.
  - intros len [[pos h] tbl] Hlen [-> [-> T]]. set (N := Z.to_nat (len - 1)) in *.
    replace (len - 1) with (Z.of_nat N) by lia. rewrite source_count by lia. cbn [bind].
    replace len with (Z.of_nat (S N)) by lia.
    set (W := 2 ^ (Z.of_nat L - Z.of_nat (S N))).
    assert (PW : 0 < W) by (apply Z.pow_pos_nonneg; lia).
    assert (EW : 2 ^ (Z.of_nat L - Z.of_nat N) = 2 * W) by (unfold W; rewrite <- Z.pow_succ_r by lia; f_equal; lia).
    destruct (rfold_zrange
      (fun (_ : Z) '(pos, h, tbl) =>
        leaf <- get source pos ;;
        '(h, tbl) <- crw_fill (Z.of_nat L) (Z.of_nat (S N)) leaf (h, tbl) ;;
        Ok (pos + 1, h, tbl))
      (fun I '(pos, h, tbl) => pos = 16 + Fn N + I /\ h = (2 * En N + I) * W /\ entries (Fn N + I) tbl)
      0 (cn (S N)) (16 + Fn N, En N * 2 ^ (Z.of_nat L - Z.of_nat N), tbl)) as [[[pos' h'] tbl'] [E' [-> [-> T']]]].
    + apply (cn_pos bits Hp).
    + split; [lia|]. split; [rewrite EW; lia|]. rewrite Z.add_0_r. exact T.
    + intros I [[pos h] tbl1] HI [-> [-> T1]].
      assert (FM : Fn N + cn (S N) <= Fn 16) by exact (Fn_mono bits Hp (S N) 16 ltac:(lia)).
      pose proof (Fn_pos bits Hp N). pose proof (En_pos bits Hp N).
      replace (16 + Fn N + I) with (16 + (Fn N + I)) by lia.
      rewrite source_sym by lia. cbn [bind].
      assert (HB : En (S N) <= 2 ^ Z.of_nat (S N)) by (apply En_bound; [exact Hp|apply hkraft; exact Hc|lia]).
      change (En (S N)) with (2 * En N + cn (S N)) in HB.
      assert (EL : 2 ^ Z.of_nat L = 2 ^ Z.of_nat (S N) * W) by (unfold W; rewrite <- Z.pow_add_r by lia; f_equal; lia).
      destruct (crw_fill_range (Z.of_nat L) (Z.of_nat (S N)) (znth syms (Fn N + I)) ((2 * En N + I) * W) tbl1) as [tbl2 [E2 [L2 V2]]].
      * apply Z.mul_nonneg_nonneg; lia.
      * lia.
      * fold W. rewrite EL. replace ((2 * En N + I) * W + W) with ((2 * En N + I + 1) * W) by ring. apply Z.mul_le_mono_nonneg_r; lia.
      * apply T1.
      * rewrite E2. cbn [bind]. eexists. split; [reflexivity|]. split; [lia|]. split; [fold W; ring|].
        split; [exact L2|]. intros n i c Hn Hi Hq Hcr Hdiv. rewrite V2 by lia. fold W.
        destruct (Z_lt_ge_dec (Fn n + i) (Fn N + I)) as [X|X].
        -- pose proof (words_order n i N I Hn ltac:(lia) ltac:(lia) Hi ltac:(lia) X ltac:(lia)) as O. fold W in O.
           pose proof (cn_L n ltac:(lia)).
           assert (Hlt : c < (2 * En n + i + 1) * 2 ^ (Z.of_nat L - Z.of_nat (S n))).
           { rewrite <- Hdiv. pose proof (Z.pow_pos_nonneg 2 (Z.of_nat L - Z.of_nat (S n)) ltac:(lia) ltac:(lia)). rewrite Z.mul_comm. apply Z.mul_succ_div_gt. lia. }
           replace ((2 * En N + I) * W <=? c) with false by lia. cbn [andb]. destruct T1 as [_ T1]. apply T1; assumption.
        -- assert (n = N /\ i = I) as [-> ->].
           { apply (class_inj bits Hp n i N I); lia. }
           fold W in Hdiv. assert ((2 * En N + I) * W <= c < (2 * En N + I) * W + W) by (rewrite <- Hdiv; pose proof (Z.div_mod c W ltac:(lia)); pose proof (Z.mod_pos_bound c W PW); lia).
           replace ((_ <=? c) && (c <? _)) with true by lia. reflexivity.
    + exists (16 + Fn N + cn (S N), (2 * En N + cn (S N)) * W, tbl'). split; [exact E'|].
      replace (Z.to_nat (Z.of_nat (S N) + 1 - 1)) with (S N) by lia. cbn [P_Huff1.Fn P_Huff1.En]. split; [unfold P_Huff1.cn; lia|]. split; [reflexivity|]. exact T'.
  - rewrite E. cbn [bind]. eexists. split; [reflexivity|]. cbn [ct_nbits ct_tbl]. split; [lia|].
    replace (Z.to_nat (Z.of_nat L + 1 - 1)) with L in T by lia.
    assert (EF : forall m, (L <= m)%nat -> Fn m = Fn L).
    { intros m Hm. induction Hm as [|m Hm IH]; [reflexivity|]. cbn [P_Huff1.Fn]. rewrite IH. pose proof (cn_pos bits Hp (S m)).
      destruct (Z.eq_dec (cn (S m)) 0) as [X|X]; [unfold P_Huff1.cn in *; lia|]. pose proof (cn_L m ltac:(unfold P_Huff1.cn in *; lia)). lia. }
    rewrite (EF 16%nat HL). exact T.
Qed.

Lemma crw_leaf_read : forall {M : Mode} t k p tail, crw_table source = Ok t -> (k < length ls)%nat -> (16 <= length tail)%nat ->
  Repr JPEG p (codeword ls k ++ tail) ->
  exists p', crw_leaf t p = Ok (nth k syms 0, p') /\ Repr JPEG p' tail.
Proof.
  intros M t k p tail Et Hk Ht R. destruct crw_table_built as [t' [E [NB [LT T]]]]. rewrite E in Et. injection Et as <-.
  pose proof L_le as HL. pose proof (hpos counts Hc) as Hp.
  assert (LL : (16 <= length (codeword ls k ++ tail))%nat) by (rewrite app_length; lia).
  assert (W : firstn (nth k ls 0%nat) (codeword ls k ++ tail) = codeword ls k).
  { rewrite <- (codeword_length counts k) at 1. apply firstn_pre. }
  destruct (hit_word counts Hc k (codeword ls k ++ tail) Hk W) as [n [i [[Hn [_ [Hi Hnum]]] [Ek Elen]]]].
  pose proof (cn_L n ltac:(lia)) as HnL.
  unfold crw_leaf. rewrite NB.
  destruct (peek_ok JPEG p _ L R ltac:(lia) ltac:(lia)) as [p1 [E1 [R1 N1]]]. rewrite E1. cbn [bind value_of].
  set (c := number (firstn L (codeword ls k ++ tail))) in *.
  assert (Hcr : 0 <= c < 2 ^ Z.of_nat L). { unfold c. pose proof (number_range (firstn L (codeword ls k ++ tail))) as X. rewrite firstn_length_le in X by lia. exact X. }
  rewrite (get_nth _ _ (0, 0)) by lia.
  rewrite (T n i c Hn Hi).
  - cbn [bind]. destruct (consume_ok JPEG p1 _ (S n) R1 ltac:(lia)) as [p2 [E2 [R2 _]]]. rewrite E2. cbn [bind]. exists p2. split.
    + f_equal. f_equal. rewrite <- Ek. unfold znth. rewrite Nat2Z.id. reflexivity.
    + rewrite <- Elen, <- (codeword_length counts k), skipn_pre in R2. exact R2.
  - assert (X : Fn n + cn (S n) <= Fn 16) by exact (Fn_mono bits Hp (S n) 16 ltac:(lia)). lia.
  - exact Hcr.
  - rewrite <- Hnum. rewrite (number_firstn (S n) L) by lia. unfold c. do 2 f_equal. lia.
Qed.
End Table.
