(** Proofs about lossless JPEG: strips of Leaf files, and what goes wrong. *)
From Coq Require Import String ZArith List Bool Lia ZifyBool ZifyNat.
From Verif Require Import Base Bytes Pumps ByteStream Threads Packed Huffman Ljpeg Spec_Bits Spec_Pump Spec_Stream Spec_Huffman Spec_Ljpeg
  P_Base P_Bits P_Pumps P_Huff4 P_Huff5 P_Huff6 P_Ljpeg1 P_Ljpeg2 P_Ljpeg3 P_Ljpeg4 P_Ljpeg5.
Import ListNotations.
Local Open Scope Z_scope.
Ltac Zify.zify_post_hook ::= Z.div_mod_to_equations.

Lemma rfold_ext : forall {A S} (f g : A -> S -> res S) l s, (forall x s, In x l -> f x s = g x s) -> rfold f l s = rfold g l s.
Proof.
  intros A S f g l. induction l as [|x l IH]; intros s H; [reflexivity|]. cbn [rfold]. rewrite H by (left; reflexivity).
  destruct (g x s); cbn [bind]; try reflexivity. apply IH. intros. apply H. right. assumption.
Qed.

Lemma leaf_strip_ok : forall {M : Mode} prec dng codes t1 t2 base pic w h src pad rest out,
  let tab i := if i =? 0 then t1 else t2 in
  0 <= prec <= 16 -> 0 <= base < 65536 ->
  (forall i, 0 <= i < 2 -> good_code debug prec (codes i) /\ (dng = true -> ~ In 16 (hc_syms (codes i))) /\
      huff_new (0 :: hc_counts (codes i)) (padded (hc_syms (codes i))) prec dng = Ok (tab i)) ->
  readable JPEG src -> stream JPEG src pad = coded codes 2 base pic w h ++ rest -> (32 <= length rest)%nat ->
  picture_of_samples pic 2 w h -> codable prec codes 2 base pic w h ->
  0 < w -> 0 < h -> zlen out = 2 * w * h ->
  exists out', decode_leaf_strip src out (2 * w) h t1 t2 base = Ok out' /\ pasted 2 0 (2 * w) w h pic out out'.
Proof.
  intros M prec dng codes t1 t2 base pic w h src pad rest out tab HP HB HT Hr Es Hl Hpic Hcod Hw Hh Hout.
  set (enc := fun i d => code_of (codes i) d).
  set (fits := fun i d => -32768 <= d <= 32767 /\ has_word prec (codes i) d).
  assert (Hc : forall i, 0 <= i < 2 -> P_Ljpeg1.codes JPEG (tab i) (enc i) (fits i)).
  { intros i Hi. destruct (HT i Hi) as [G [D E]].
    apply (code_codes JPEG prec dng (codes i) (tab i)); [discriminate|lia|assumption|assumption|assumption]. }
  assert (Hf : forall i d, fits i d -> -32768 <= d <= 32767) by (intros i d [A _]; exact A).
  assert (Hcod' : forall r j i, 0 <= r < h -> 0 <= j < w -> 0 <= i < 2 -> fits i (residual base pic r j i)).
  { intros r j i A B C. split; [apply wrap16_range|]. apply Hcod; assumption. }
  pose proof (Repr_new JPEG src pad Hr) as R. rewrite Es in R.
  rewrite <- (rows_coded 2 enc base pic w h codes (fun i d => eq_refl)) in R.
  assert (Hn : 0 < 2) by lia. assert (H0 : 0 <= 0) by lia.
  destruct (first_ok 2 tab enc fits Hn Hc Hf base pic w h 0 (2 * w) w h out HB Hpic Hcod' ltac:(lia) ltac:(lia) H0 ltac:(lia) ltac:(lia) _ rest Hl R) as [o1 [p1 [E1 [I1 R1]]]].
  destruct (rows_ok 2 tab enc fits Hn Hc Hf base pic w h 0 (2 * w) w h out HB Hpic Hcod' ltac:(lia) ltac:(lia) H0 ltac:(lia) ltac:(lia) p1 rest o1 Hl I1 R1) as [o2 [p2 [E2 [I2 R2]]]].
  unfold decode_leaf_strip. change [t1; t2] with (map tab (zrange 0 2)). rewrite E1. cbn [bind].
  match goal with |- context [rfold ?f (zrange 0 h) (o1, p1)] => assert (EE : rfold f (zrange 0 h) (o1, p1) = Ok (o2, p2)) end.
  { rewrite <- E2. apply rfold_ext. intros r [o p] Hr'. cbv zeta. rewrite Z.sub_diag. change (zrange 0 0) with (@nil Z). cbn [rfold bind].
    change (0 + 2) with 2. rewrite !Z.add_0_r.
    destruct (rfold _ _ (o, p)) as [[o' p']| | |]; reflexivity. }
  rewrite EE. cbn [bind]. exists o2. split; [reflexivity|].
  eapply Inv_pasted with (out := o2); try eassumption; lia.
Qed.

(** With two components and an odd width the last sample is written past the
    end of the output. *)
Lemma odd_width_panics : forall {M : Mode} lj dng codes pic out buf pad rest,
  let P := s_precision (lj_sof lj) in let H := s_height (lj_sof lj) in
  let base := 2 ^ (P - lj_pt lj - 1) in
  s_width (lj_sof lj) = 2 -> 0 < H -> 0 <= lj_pt lj < P -> P <= 16 -> reads_with lj dng codes 2 ->
  lj_buffer lj = buf -> readable JPEG buf ->
  stream JPEG buf pad = coded codes 2 base pic 2 H ++ rest -> (32 <= length rest)%nat ->
  picture_of_samples pic 2 2 H -> codable P codes 2 base pic 2 H -> length out = 3%nat ->
  decode_components 2 lj out 0 3 3 1 = Panic.
Proof.
  intros M lj dng codes pic out buf pad rest P H base EW HH Hpt HP HT Hbuf Hr Es Hl Hpic Hcod Hout.
  unfold decode_components. rewrite EW. fold H. change (2 * 2 <? 3) with false. replace (H <? 1) with false by lia. cbn [orb].
  set (tab := fun i => match lj_table lj i with Ok t => t | _ => huff_empty 0 end).
  rewrite (mapM_map _ tab).
  2:{ intros i Hi. apply zrange_In in Hi. destruct (HT i Hi) as [_ [_ [t [E _]]]]. unfold tab. rewrite E. reflexivity. }
  cbn [bind]. destruct (base_ok lj ltac:(lia) ltac:(fold P; lia)) as [EB HB]. fold P base in EB, HB. rewrite EB. cbn [bind].
  set (enc := fun i d => code_of (codes i) d).
  set (fits := fun i d => -32768 <= d <= 32767 /\ has_word P (codes i) d).
  assert (Hc : forall i, 0 <= i < 2 -> P_Ljpeg1.codes JPEG (tab i) (enc i) (fits i)).
  { intros i Hi. destruct (HT i Hi) as [G [D [t [E1 E2]]]]. unfold tab. rewrite E1. fold P in G, E2.
    apply (code_codes JPEG P dng (codes i) t); [discriminate|lia|assumption|assumption|assumption]. }
  assert (Hf : forall i d, fits i d -> -32768 <= d <= 32767) by (intros i d [A _]; exact A).
  assert (Hcod' : forall r j i, 0 <= r < H -> 0 <= j < 2 -> 0 <= i < 2 -> fits i (residual base pic r j i)).
  { intros r j i A B C. split; [apply wrap16_range|]. apply Hcod; assumption. }
  pose proof (Repr_new JPEG buf pad Hr) as R. rewrite Es in R.
  rewrite <- (rows_coded 2 enc base pic 2 H codes (fun i d => eq_refl)) in R. rewrite Hbuf.
  assert (Hn : 0 < 2) by lia. assert (H0 : 0 <= 0) by lia.
  destruct (first_ok 2 tab enc fits Hn Hc Hf base pic 2 H 0 3 1 1 out HB Hpic Hcod' ltac:(lia) ltac:(lia) H0 ltac:(lia) ltac:(unfold zlen; lia) _ rest Hl R) as [o1 [p1 [E1 [I1 R1]]]].
  rewrite E1. cbn [bind]. rewrite usub_ok by (change (3 / 2) with 1; lia). cbn [bind].
  assert (L1 : zlen o1 = 3) by (rewrite (I_len _ _ _ _ _ _ _ _ _ _ I1); unfold zlen; lia).
  change (zrange 0 1) with [0]. change (3 + 0) with 3. cbn [rfold bind]. change (0 =? 0) with true. cbn iota.
  change (zrange_step (0 + 2) 3 2) with [2]. cbn [rfold]. change (2 =? 0) with false. cbn iota.
  change (0 * 3 + 2 - 2) with 0. change (0 * 3 + 2) with 2.
  unfold row_from in R1. rewrite zrange_cons in R1 by lia. change (1 + 1) with 2 in R1. change (zrange 2 2) with (@nil Z) in R1. cbn [flat_map] in R1.
  rewrite app_nil_r in R1.
  destruct (diffs_ts 2 tab enc fits Hc Hf (fun i => residual base pic 0 1 i) p1 (rows_from 2 enc base pic 2 H 1 ++ rest)) as [p2 [E2 R2]].
  { intros i Hi. apply Hcod'; lia. } { rewrite app_length. lia. } { exact R1. }
  unfold next_pixel. change (zlen (map tab (zrange 0 2))) with 2.
  rewrite (mapM_map _ (fun i => znth o1 (0 + i))).
  2:{ intros i Hi. apply zrange_In in Hi. apply get_ok. lia. }
  cbn [bind]. rewrite E2. cbn [bind].
  change (zrange 0 2) with [0; 1]. cbn [map combine mapM].
  assert (A0 : 0 <= znth o1 (0 + 0) < 65536).
  { pose proof (I_done _ _ _ _ _ _ _ _ _ _ I1 0 0 0 ltac:(lia) ltac:(lia) ltac:(lia) ltac:(lia)) as D. unfold at_ in D. change (0 * 3 + 0 + 2 * 0 + 0) with 0 in D.
    change (0 + 0) with 0. rewrite D. apply Hpic; lia. }
  assert (A1 : 0 <= znth o1 (0 + 1) < 65536).
  { pose proof (I_done _ _ _ _ _ _ _ _ _ _ I1 0 0 1 ltac:(lia) ltac:(lia) ltac:(lia) ltac:(lia)) as D. unfold at_ in D. change (0 * 3 + 0 + 2 * 0 + 1) with 1 in D.
    change (0 + 1) with 1. rewrite D. apply Hpic; lia. }
  pose proof (wrap16_range (pic 0 1 0 - prediction base pic 0 1 0)) as W0. pose proof (wrap16_range (pic 0 1 1 - prediction base pic 0 1 1)) as W1.
  fold (residual base pic 0 1 0) in W0. fold (residual base pic 0 1 1) in W1.
  rewrite i32add_ok by lia. cbn [bind]. rewrite i32add_ok by lia. cbn [bind store].
  rewrite upd_ok by lia. cbn [bind]. rewrite upd_oob; [reflexivity|]. rewrite zlen_upd_nat. lia.
Qed.
