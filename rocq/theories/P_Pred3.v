(** Proofs about predictive formats: the code table of a Pentax file. *)
From Coq Require Import String ZArith List Bool Lia ZifyBool ZifyNat Permutation.
From Verif Require Import Base Bytes Pumps Huffman Packed Tiff Decoder Dec_Pred Spec_Bits Spec_Pump Spec_Stream Spec_Image Spec_Huffman Spec_Ljpeg Spec_Pred
  P_Base P_Bits P_Pumps P_Huff4 P_Huff5 P_Huff6 P_Ljpeg1 P_Ljpeg2 P_Ljpeg4 P_Pred1 P_Pred2.
Import ListNotations.
Local Open Scope Z_scope.
Ltac Zify.zify_post_hook ::= Z.div_mod_to_equations.

(** ** Canonical codes *)
Lemma nth_repeat_lt : forall {A} (x d : A) n k, (k < n)%nat -> nth k (repeat x n) d = x.
Proof. intros A x d n. induction n as [|n IH]; intros k H; [lia|]. destruct k; cbn; [reflexivity|]. apply IH. lia. Qed.
Lemma lengths_ge : forall counts l x, In x (lengths_from l counts) -> (l <= x)%nat.
Proof.
  induction counts as [|c counts IH]; intros l x H; [destruct H|]. cbn [lengths_from] in H. apply in_app_iff in H. destruct H as [H|H].
  - apply repeat_spec in H. lia.
  - apply IH in H. lia.
Qed.
Lemma lengths_sorted : forall counts l j k, (j <= k < length (lengths_from l counts))%nat ->
  (nth j (lengths_from l counts) 0 <= nth k (lengths_from l counts) 0)%nat.
Proof.
  induction counts as [|c counts IH]; intros l j k H; [cbn in H; lia|]. cbn [lengths_from] in *. rewrite app_length, repeat_length in H.
  destruct (Nat.lt_ge_cases k (Z.to_nat c)) as [A|A].
  - rewrite !app_nth1 by (rewrite repeat_length; lia). rewrite !nth_repeat_lt by lia. lia.
  - destruct (Nat.lt_ge_cases j (Z.to_nat c)) as [B|B].
    + rewrite app_nth1 by (rewrite repeat_length; lia). rewrite nth_repeat_lt by lia.
      rewrite app_nth2 by (rewrite repeat_length; lia). rewrite repeat_length.
      pose proof (lengths_ge counts (S l) (nth (k - Z.to_nat c) (lengths_from (S l) counts) 0%nat)) as G.
      assert (l < nth (k - Z.to_nat c) (lengths_from (S l) counts) 0)%nat; [|lia]. apply G. apply nth_In. lia.
    + rewrite !app_nth2 by (rewrite repeat_length; lia). rewrite repeat_length. apply IH. lia.
Qed.
Lemma space_cons : forall L l ls, space L (l :: ls) = 2 ^ (Z.of_nat L - Z.of_nat l) + space L ls.
Proof. reflexivity. Qed.
Lemma space_nonneg : forall L ls, 0 <= space L ls.
Proof. intros L ls. induction ls as [|l ls IH]; [cbn; lia|]. rewrite space_cons. pose proof (Z.pow_nonneg 2 (Z.of_nat L - Z.of_nat l)). lia. Qed.
Lemma space_scale : forall L d ls, Forall (fun l => (l <= L)%nat) ls -> space (L + d) ls = 2 ^ Z.of_nat d * space L ls.
Proof.
  intros L d ls H. induction H as [|l ls Hl _ IH]; [cbn; lia|]. rewrite !space_cons, IH.
  replace (Z.of_nat (L + d) - Z.of_nat l) with (Z.of_nat d + (Z.of_nat L - Z.of_nat l)) by lia. rewrite Z.pow_add_r by lia. lia.
Qed.
Lemma space_monotone : forall L ls j k, (j <= k)%nat -> space L (firstn j ls) <= space L (firstn k ls).
Proof.
  intros L ls j k H. replace (firstn k ls) with (firstn j ls ++ firstn (k - j) (skipn j ls)).
  - rewrite space_app. pose proof (space_nonneg L (firstn (k - j) (skipn j ls))). lia.
  - replace k with (j + (k - j))%nat at 2 by lia. generalize (k - j)%nat as d. intros d. revert ls. clear H.
    induction j as [|j IH]; intros ls; [reflexivity|]. destruct ls; cbn; [rewrite !firstn_nil; reflexivity|]. f_equal. apply IH.
Qed.
Lemma firstn_snoc : forall {A} (l : list A) k d, (k < length l)%nat -> firstn (S k) l = firstn k l ++ [nth k l d].
Proof. induction l as [|x l IH]; intros k d H; [cbn in H; lia|]. destruct k; [reflexivity|]. cbn [firstn nth app]. f_equal. apply IH. cbn in H. lia. Qed.

Section Canon.
Variable counts : list Z.
Notation ls := (lengths counts).
Lemma firstn_le : forall k, (k < length ls)%nat -> Forall (fun l => (l <= nth k ls 0)%nat) (firstn (S k) ls).
Proof.
  intros k Hk. apply Forall_forall. intros x Hx. apply (In_nth _ _ 0%nat) in Hx. destruct Hx as [j [Hj <-]].
  rewrite firstn_length in Hj. rewrite nth_firstn' by lia. apply lengths_sorted. unfold lengths in *. lia.
Qed.
Lemma value_next : forall k, (k < length ls)%nat -> space (nth k ls 0%nat) (firstn (S k) ls) = code_value ls k + 1.
Proof.
  intros k Hk. rewrite (firstn_snoc ls k 0%nat) by exact Hk. rewrite space_app. unfold code_value. f_equal.
  unfold space. cbn [map sum fold_right]. rewrite Z.sub_diag. reflexivity.
Qed.
Lemma value_increasing : forall j k, (j < k < length ls)%nat -> code_value ls j < code_value ls k.
Proof.
  intros j k H. pose proof (lengths_sorted counts 1 j k ltac:(unfold lengths in H; lia)) as S1. fold ls in S1.
  unfold code_value at 2.
  pose proof (space_monotone (nth k ls 0%nat) ls (S j) k ltac:(lia)) as S2.
  replace (nth k ls 0%nat) with (nth j ls 0 + (nth k ls 0 - nth j ls 0))%nat in S2 at 1 by lia.
  rewrite space_scale in S2 by (apply firstn_le; lia). rewrite value_next in S2 by lia.
  pose proof (space_nonneg (nth j ls 0%nat) (firstn j ls)) as N. unfold code_value at 1. fold (code_value ls j) in N |- *.
  assert (1 <= 2 ^ Z.of_nat (nth k ls 0%nat - nth j ls 0%nat)) by (change 1 with (2 ^ 0); apply Z.pow_le_mono_r; lia). nia.
Qed.
Lemma value_fits : forall k, (k < length ls)%nat -> (nth k ls 0 <= 16)%nat -> space 16 ls <= 2 ^ 16 -> 0 <= code_value ls k < 2 ^ Z.of_nat (nth k ls 0%nat).
Proof.
  intros k Hk H16 K. split; [apply space_nonneg|].
  pose proof (space_monotone 16 ls (S k) (length ls) ltac:(lia)) as S2. rewrite firstn_all in S2.
  replace 16%nat with (nth k ls 0 + (16 - nth k ls 0))%nat in S2 at 1 by lia.
  rewrite space_scale in S2 by (apply firstn_le; lia). rewrite value_next in S2 by lia.
  replace (2 ^ 16) with (2 ^ Z.of_nat (16 - nth k ls 0%nat) * 2 ^ Z.of_nat (nth k ls 0%nat)) in K by (rewrite <- Z.pow_add_r by lia; f_equal; lia).
  assert (0 < 2 ^ Z.of_nat (16 - nth k ls 0%nat)) by (apply Z.pow_pos_nonneg; lia). nia.
Qed.
End Canon.

Lemma count_repeat : forall (n x : nat) k, count_occ Nat.eq_dec (repeat x k) n = if (x =? n)%nat then k else 0%nat.
Proof.
  intros n x k. induction k as [|k IH]; cbn [repeat count_occ]; [destruct (x =? n)%nat; reflexivity|]. rewrite IH.
  destruct (Nat.eq_dec x n) as [->|N]; [rewrite Nat.eqb_refl; reflexivity|]. replace (x =? n)%nat with false by lia. reflexivity.
Qed.
Lemma count_lengths : forall counts l n, Forall (fun c => 0 <= c) counts ->
  Z.of_nat (count_occ Nat.eq_dec (lengths_from l counts) n) = if (n <? l)%nat then 0 else nth (n - l) counts 0.
Proof.
  induction counts as [|c counts IH]; intros l n H.
  - cbn [lengths_from count_occ]. destruct (n <? l)%nat; [reflexivity|]. destruct (n - l)%nat; reflexivity.
  - cbn [lengths_from]. rewrite count_occ_app, count_repeat, Nat2Z.inj_add, IH by exact (Forall_inv_tail H).
    pose proof (Forall_inv H). cbn beta in *. destruct (l =? n)%nat eqn:E.
    + replace l with n by lia. rewrite Nat.ltb_irrefl, Nat.sub_diag. replace (n <? S n)%nat with true by lia. cbn [nth]. lia.
    + destruct (n <? l)%nat eqn:F.
      * replace (n <? S l)%nat with true by lia. lia.
      * replace (n <? S l)%nat with false by lia. replace (n - l)%nat with (S (n - S l)) by lia. cbn [nth]. lia.
Qed.

(** ** Reading numbers *)
Lemma At_two : forall big buf pos v s, 0 <= v < 65536 -> At buf pos (two_bytes big v ++ s) ->
  ru16 big buf pos = Ok v /\ At buf (pos + 2) s.
Proof.
  intros big buf pos v s Hv H.
  assert (N : At buf (pos + 2) s).
  { replace (pos + 2) with (pos + 1 + 1) by lia. destruct big; cbn [two_bytes app] in H; apply At_next in H; apply At_next in H; exact H. }
  split; [|exact N]. destruct H as [pre [E P]]. subst. pose proof (zlen_nonneg pre). pose proof (zlen_nonneg s).
  destruct big; cbn [two_bytes app ru16]; [unfold BEu16|unfold LEu16].
  all: rewrite slice_ok by (rewrite ?zlen_app, ?zlen_cons; lia).
  all: cbn [bind]; replace (Z.to_nat (zlen pre)) with (length pre) by (unfold zlen; lia); rewrite skipn_app, skipn_all, Nat.sub_diag.
  all: replace (Z.to_nat (zlen pre + 2 - zlen pre)) with 2%nat by lia; cbn [app skipn firstn].
  - rewrite be16_value by (unfold byte; lia). cbn [big_endian_value length]. change (Z.of_nat 1) with 1. change (Z.of_nat 0) with 0. f_equal. lia.
  - rewrite le16_value by (unfold byte; lia). cbn [little_endian_value]. f_equal. lia.
Qed.
Lemma At_app : forall buf pos a s, At buf pos (a ++ s) -> At buf (pos + zlen a) s.
Proof. intros buf pos a s [pre [E P]]. exists (pre ++ a). split; [rewrite E, app_assoc; reflexivity|]. rewrite zlen_app. lia. Qed.

Section Note.
Context {M : Mode}.
Variables (h : hcode) (depth : Z).
Hypothesis Ht : pentax_table h depth.
Notation syms := (hc_syms h).
Notation counts := (hc_counts h).
Notation ls := (lengths (hc_counts h)).
Local Notation pos c := (category_word h (Z.to_nat c)).

Lemma pos_def : forall c, 0 <= c -> pos c = position c syms.
Proof. intros c Hc. cbv beta. unfold category_word. rewrite Z2Nat.id by exact Hc. reflexivity. Qed.
Lemma sym_in : forall c, 0 <= c < depth -> In c syms.
Proof.
  destruct Ht as [_ [_ [H1 [H2 [H3 _]]]]]. intros c Hc.
  assert (I : incl (upto depth) syms).
  { apply NoDup_length_incl; [exact H2| |].
    - rewrite upto_zrange. rewrite zrange_length. lia.
    - intros x Hx. rewrite Forall_forall in H3. apply H3 in Hx. rewrite upto_zrange. apply zrange_In. lia. }
  apply I. rewrite upto_zrange. apply zrange_In. lia.
Qed.
Lemma pos_lt : forall c, 0 <= c < depth -> (pos c < length ls)%nat.
Proof. intros c Hc. rewrite pos_def by lia. destruct Ht as [_ [H1 _]]. rewrite <- H1. apply position_nth. apply sym_in. exact Hc. Qed.
Lemma sym_pos : forall c, 0 <= c < depth -> nth (pos c) syms 0 = c.
Proof. intros c Hc. rewrite pos_def by lia. apply position_nth. apply sym_in. exact Hc. Qed.
Lemma sym_range : forall k, (k < length ls)%nat -> 0 <= nth k syms 0 < depth.
Proof. intros k Hk. destruct Ht as [_ [H1 [_ [_ [H3 _]]]]]. rewrite Forall_forall in H3. apply H3. apply nth_In. lia. Qed.
Lemma pos_sym : forall k, (k < length ls)%nat -> pos (nth k syms 0) = k.
Proof.
  intros k Hk. pose proof (sym_range k Hk) as Hr. pose proof (pos_lt _ Hr) as P1. pose proof (sym_pos _ Hr) as P2.
  destruct Ht as [_ [H1 [_ [H2 _]]]]. rewrite (NoDup_nth _ 0) in H2. apply H2; [lia|lia|exact P2].
Qed.
Lemma pos_inj : forall c c', 0 <= c < depth -> 0 <= c' < depth -> pos c = pos c' -> c = c'.
Proof. intros c c' Hc Hc' E. rewrite <- (sym_pos c Hc), <- (sym_pos c' Hc'). rewrite E. reflexivity. Qed.
Lemma value_order : forall c c', 0 <= c < depth -> 0 <= c' < depth -> (word_value h c < word_value h c' <-> (pos c < pos c')%nat).
Proof.
  intros c c' Hc Hc'. unfold word_value. pose proof (pos_lt c Hc). pose proof (pos_lt c' Hc'). split; intros X.
  - destruct (Nat.lt_trichotomy (pos c) (pos c')) as [Y|[Y|Y]]; [exact Y|cbv beta in *; rewrite Y in X; lia|].
    pose proof (value_increasing counts (pos c') (pos c) ltac:(cbv beta in *; lia)). cbv beta in *. lia.
  - apply value_increasing. cbv beta in *. lia.
Qed.
Lemma length_le : forall c, (word_length h c <= 12)%nat.
Proof.
  intros c. unfold word_length. destruct Ht as [_ [_ [_ [_ [_ H]]]]]. rewrite Forall_forall in H.
  destruct (Nat.lt_ge_cases (category_word h (Z.to_nat c)) (length ls)) as [L|L]; [apply H, nth_In, L|rewrite nth_overflow by exact L; lia].
Qed.
Lemma value_range : forall c, 0 <= c < depth -> 0 <= word_value h c < 2 ^ Z.of_nat (word_length h c).
Proof.
  intros c Hc. pose proof (length_le c) as L. unfold word_value, word_length in *. destruct Ht as [[_ [_ [_ K]]] _].
  apply value_fits; [exact (pos_lt c Hc)|lia|exact K].
Qed.
Lemma value_12 : forall c, 0 <= c < depth -> 0 <= word_value h c * 2 ^ (12 - Z.of_nat (word_length h c)) < 4096 /\
  (word_value h c * 2 ^ (12 - Z.of_nat (word_length h c))) / 2 ^ (12 - Z.of_nat (word_length h c)) = word_value h c.
Proof.
  intros c Hc. pose proof (length_le c) as L. pose proof (value_range c Hc) as V.
  assert (P : 0 < 2 ^ (12 - Z.of_nat (word_length h c))) by (apply Z.pow_pos_nonneg; lia).
  assert (Q : 4096 = 2 ^ Z.of_nat (word_length h c) * 2 ^ (12 - Z.of_nat (word_length h c))) by (rewrite <- Z.pow_add_r by lia; change 4096 with (2 ^ 12); f_equal; lia).
  split; [rewrite Q; nia|]. apply Z.div_mul. lia.
Qed.

(** The sixteen counts. *)
Lemma lengths_perm : Permutation (map (word_length h) (upto depth)) ls.
Proof.
  replace ls with (map (word_length h) syms).
  - apply Permutation_map. destruct Ht as [_ [_ [_ [H2 [H3 _]]]]]. apply NoDup_Permutation; [|exact H2|].
    + rewrite upto_zrange. apply zrange_NoDup.
    + intros x. rewrite upto_zrange, zrange_In. split; [intros Hx; apply sym_in; lia|]. rewrite Forall_forall in H3. intros Hx. apply H3 in Hx. lia.
  - destruct Ht as [_ [H1 _]]. apply (nth_ext _ _ 0%nat 0%nat); [rewrite map_length; exact H1|].
    rewrite map_length. intros k Hk. rewrite (nth_indep _ 0%nat (word_length h 0)) by (rewrite map_length; exact Hk). rewrite map_nth.
    unfold word_length. f_equal. apply pos_sym. lia.
Qed.
Definition tally (i : Z) (n : nat) : Z := Z.of_nat (count_occ Nat.eq_dec (map (word_length h) (upto i)) n).
Lemma tally_step : forall i n, 0 <= i -> tally (i + 1) n = tally i n + (if (word_length h i =? n)%nat then 1 else 0).
Proof.
  intros i n Hi. unfold tally. rewrite !upto_zrange, zrange_snoc by lia. rewrite map_app, count_occ_app. cbn [map count_occ].
  destruct (Nat.eq_dec (word_length h i) n) as [->|N]; [rewrite Nat.eqb_refl; lia|]. replace (word_length h i =? n)%nat with false by lia. lia.
Qed.
Lemma tally_all : forall n, (n < 17)%nat -> tally depth n = nth n (0 :: counts) 0.
Proof.
  intros n Hn. unfold tally. destruct Ht as [[_ [C _]] _].
  rewrite (Permutation_count_occ Nat.eq_dec) in * || idtac.
  pose proof (proj1 (Permutation_count_occ Nat.eq_dec _ _) lengths_perm n) as E. rewrite E. unfold lengths. rewrite count_lengths by exact C.
  destruct n as [|n]; [reflexivity|]. replace (S n <? 1)%nat with false by lia. replace (S n - 1)%nat with n by lia. reflexivity.
Qed.
End Note.
