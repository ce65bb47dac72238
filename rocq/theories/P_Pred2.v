(** Proofs about predictive formats: code tables in files (Pentax, Nikon). *)
From Coq Require Import String ZArith List Bool Lia ZifyBool ZifyNat.
From Verif Require Import Base Bytes Pumps Huffman Packed Tiff Decoder Dec_Pred Spec_Bits Spec_Pump Spec_Stream Spec_Image Spec_Huffman Spec_Ljpeg Spec_Pred
  P_Base P_Bits P_Pumps P_Huff4 P_Huff5 P_Huff6 P_Ljpeg1 P_Ljpeg2 P_Pred1.
Import ListNotations.
Local Open Scope Z_scope.
Ltac Zify.zify_post_hook ::= Z.div_mod_to_equations.

Lemma slice_mid : forall (a b c : list Z) s e, s = zlen a -> e = zlen a + zlen b -> slice (a ++ b ++ c) s e = Ok b.
Proof.
  intros a b c s e -> ->. pose proof (zlen_nonneg a). pose proof (zlen_nonneg b). pose proof (zlen_nonneg c).
  rewrite slice_ok by (try rewrite !zlen_app; lia). f_equal.
  replace (Z.to_nat (zlen a)) with (length a) by (unfold zlen; lia).
  replace (Z.to_nat (zlen a + zlen b - zlen a)) with (length b) by (unfold zlen; lia).
  rewrite skipn_app, skipn_all, Nat.sub_diag. cbn [app skipn]. rewrite firstn_app, firstn_all, Nat.sub_diag, firstn_O, app_nil_r. reflexivity.
Qed.
Lemma length_lengths_from : forall counts l, Forall (fun c => 0 <= c) counts -> Z.of_nat (length (lengths_from l counts)) = fold_right Z.add 0 counts.
Proof.
  induction counts as [|c counts IH]; intros l H; [reflexivity|]. cbn [lengths_from fold_right]. rewrite app_length, repeat_length.
  pose proof (Forall_inv H). rewrite Nat2Z.inj_add, IH by exact (Forall_inv_tail H). cbn beta in *. lia.
Qed.

Section Trees.
Context {M : Mode}.
Lemma tree_codes : forall h extra prec, 0 <= prec <= 16 -> good_code debug prec h ->
  exists t, tree_table (hc_counts h ++ hc_syms h ++ extra) prec = Ok t /\
    codes MSB t (code_of h) (fun d => -32768 <= d <= 32767 /\ has_word prec h d).
Proof.
  intros h extra prec Hp Hg. pose proof Hg as [Hc [Hs [Hf [H4 H5]]]]. unfold tree_table.
  destruct Hc as [C1 [C2 [C3 C4]]]. destruct Hs as [S1 S2].
  rewrite (slice_mid [] (hc_counts h) (hc_syms h ++ extra)); [|reflexivity|unfold zlen; rewrite C1; reflexivity]. cbn [bind].
  rewrite <- (length_lengths_from (hc_counts h) 1) by exact C2. fold (lengths (hc_counts h)). rewrite <- S1.
  rewrite (slice_mid (hc_counts h) (hc_syms h) extra); [|unfold zlen; rewrite C1; reflexivity|unfold zlen; rewrite C1; reflexivity]. cbn [bind].
  replace (hc_syms h ++ zeros (256 - Z.of_nat (length (hc_syms h)))) with (padded (hc_syms h)).
  2:{ unfold padded, zeros. do 2 f_equal. lia. }
  destruct (new_builds (hc_counts h) (hc_syms h) prec false) as [t Et]; [repeat split; assumption|split; assumption|exact Hp|exact Hf|exact H4|].
  exists t. split; [exact Et|]. apply (code_codes MSB prec false h t); [discriminate|exact Hp|exact Hg|discriminate|exact Et].
Qed.

(** Words of at most 16 bits, none of 16 in debug mode: any table without words of 16 bits is good. *)
Lemma plain_good : forall dbg prec h, code_table (hc_counts h) -> symbols_for (hc_counts h) (hc_syms h) ->
  nth 15 (hc_counts h) 0 = 0 -> ~ In 16 (hc_syms h) -> good_code dbg prec h.
Proof.
  intros dbg prec h Hc Hs H0 H16. split; [exact Hc|]. split; [exact Hs|]. split; [intros _; left; exact H0|]. split; [right; left; exact H0|].
  intros k Hk E. exfalso. apply H16. rewrite <- E. apply nth_In. destruct Hs as [S1 _]. rewrite S1. exact Hk.
Qed.

Lemma pentax_good : forall dbg, good_code dbg 16 pentax_code.
Proof.
  intros dbg. apply plain_good.
  - split; [reflexivity|]. split; [cbn [hc_counts pentax_code]; repeat (apply Forall_cons; [lia|]); apply Forall_nil|]. split; [vm_compute; lia|vm_compute; discriminate].
  - split; [reflexivity|]. cbn [hc_syms pentax_code]. repeat (apply Forall_cons; [lia|]). apply Forall_nil.
  - reflexivity.
  - cbn. lia.
Qed.
Lemma category_le : forall d n, (category d <= n)%nat -> Z.abs d < 2 ^ Z.of_nat n.
Proof.
  intros d n H. unfold category in H. destruct (d =? 0) eqn:E; [replace d with 0 by lia; cbn; lia|].
  pose proof (Z.log2_nonneg (Z.abs d)). pose proof (Z.log2_spec (Z.abs d) ltac:(lia)).
  apply Z.lt_le_trans with (2 ^ Z.succ (Z.log2 (Z.abs d))); [lia|]. apply Z.pow_le_mono_r; lia.
Qed.
Lemma le_category : forall d n, Z.abs d < 2 ^ Z.of_nat n -> (category d <= n)%nat.
Proof.
  intros d n H. unfold category. destruct (d =? 0) eqn:E; [lia|]. pose proof (Z.log2_nonneg (Z.abs d)).
  assert (Z.log2 (Z.abs d) < Z.of_nat n); [|lia]. apply Z.log2_lt_pow2; lia.
Qed.
Lemma pentax_words : forall d, Z.abs d < 4096 -> -32768 <= d <= 32767 /\ has_word 16 pentax_code d.
Proof.
  intros d H. split; [lia|]. pose proof (le_category d 12 H) as C.
  assert (forall n, (n <= 12)%nat -> In (Z.of_nat n) (hc_syms pentax_code) /\ decodable 16 (lengths (hc_counts pentax_code)) (category_word pentax_code n)) as HW.
  { intros n Hn. do 13 (destruct n as [|n]; [split; [cbn; tauto|]; first [left; vm_compute; lia|right; split; [vm_compute; discriminate|intros [X _]; vm_compute in X; discriminate]]|]). lia. }
  exact (HW _ C).
Qed.

Theorem pef_builtin : forall tiff src w h pic rest, find_entry tiff T_PefHuffman = None ->
  0 < w -> Z.even w = true -> 0 <= h -> sample_picture pic w h ->
  (forall r c, 0 <= r < h -> 0 <= c < w -> Z.abs (step_of (fun _ _ => 0) pic r c) < 4096) ->
  readable MSB src -> stream MSB src 0 = steps_coded (fun _ => code_of pentax_code) (fun _ _ => 0) pic w h ++ rest -> (32 <= length rest)%nat ->
  exists out, pef_decompress tiff src w h = Ok out /\ is_image out w h pic.
Proof.
  intros tiff src w h pic rest Hn Hw He Hh Hs Hd Hrd Es Hr. apply Z.even_spec in He. destruct He as [m ->].
  unfold pef_decompress. rewrite Hn.
  destruct (tree_codes pentax_code [] 16 ltac:(lia) (pentax_good debug)) as [t [Et Ht]].
  change (hc_counts pentax_code ++ hc_syms pentax_code ++ []) with pentax_tree in Et. rewrite Et. cbn [bind].
  refine (pef_rows_ok t (code_of pentax_code) _ m h pic Ht Hs _ ltac:(lia) Hh src rest Hrd Es Hr).
  intros r c Hr' Hc. apply pentax_words. apply Hd; assumption.
Qed.
End Trees.
