(** Proofs about Samsung's first compression: whole pictures. *)
From Coq Require Import String ZArith List Bool Lia ZifyBool ZifyNat.
From Verif Require Import Base Bytes Pumps Huffman Packed Threads Dec_Nef Spec_Bits Spec_Pump Spec_Stream Spec_Image Spec_Huffman Spec_Ljpeg Spec_Pred Spec_Srw1
  P_Base P_Bits P_Threads P_Pumps P_Huff1 P_Huff4 P_Huff5 P_Ljpeg1 P_Ljpeg2 P_Pred1 P_Pred6 P_Pred10 P_Always P_Shape1 P_Srw1.
Import ListNotations.
Local Open Scope Z_scope.
Ltac Zify.zify_post_hook ::= Z.div_mod_to_equations.

Lemma evm : forall c, Z.even c = (c mod 2 =? 0).
Proof. intros c. pose proof (Zmod_even c) as H. destruct (Z.even c); lia. Qed.

(** ** The last step: changing places *)
Definition Shows (w h : Z) (f : Z -> Z -> Z) (out : list Z) : Prop := zlen out = w * h /\ forall r c, 0 <= r < h -> 0 <= c < w -> znth out (r * w + c) = f r c.
Lemma Shows_ext : forall w h f f' out, (forall r c, 0 <= r < h -> 0 <= c < w -> f r c = f' r c) -> Shows w h f out -> Shows w h f' out.
Proof. intros w h f f' out H [L V]. split; [exact L|]. intros r c Hr Hc. rewrite V by assumption. apply H; assumption. Qed.
Lemma Shows_upd : forall w h f out r c v, 0 <= r < h -> 0 <= c < w -> Shows w h f out ->
  exists out', upd out (r * w + c) v = Ok out' /\ Shows w h (fun r' c' => if (r' =? r) && (c' =? c) then v else f r' c') out'.
Proof.
  intros w h f out r c v Hr Hc [L V]. pose proof (cell_range w h r c Hr Hc) as B. rewrite upd_ok by lia. eexists. split; [reflexivity|].
  split; [rewrite zlen_upd_nat; exact L|]. intros r' c' Hr' Hc'. pose proof (cell_range w h r' c' Hr' Hc') as B'. rewrite znth_upd_nat by lia.
  destruct (r' * w + c' =? r * w + c) eqn:E.
  - destruct (cell_inj' w c' c r' r Hc' Hc) as [-> ->]; [lia|]. replace (r =? r) with true by lia. replace (c =? c) with true by lia. reflexivity.
  - rewrite V by assumption. destruct ((r' =? r) && (c' =? c)) eqn:Q; [|reflexivity]. assert (r' = r /\ c' = c) as [-> ->] by lia. lia.
Qed.
Lemma swap_ok : forall w h f out r c r2 c2, 0 <= r < h -> 0 <= c < w -> 0 <= r2 < h -> 0 <= c2 < w -> Shows w h f out ->
  exists out', swap out (r * w + c) (r2 * w + c2) = Ok out' /\
    Shows w h (fun r' c' => if (r' =? r2) && (c' =? c2) then f r c else if (r' =? r) && (c' =? c) then f r2 c2 else f r' c') out'.
Proof.
  intros w h f out r c r2 c2 Hr Hc Hr2 Hc2 HS. pose proof HS as [L V]. pose proof (cell_range w h r c Hr Hc). pose proof (cell_range w h r2 c2 Hr2 Hc2). unfold swap.
  rewrite (get_ok out (r * w + c)) by lia. cbn [bind]. rewrite (get_ok out (r2 * w + c2)) by lia. cbn [bind].
  fold (znth out (r * w + c)) (znth out (r2 * w + c2)). rewrite !V by assumption.
  destruct (Shows_upd w h f out r c (f r2 c2) Hr Hc HS) as [o1 [E1 S1]]. rewrite E1. cbn [bind].
  destruct (Shows_upd w h _ o1 r2 c2 (f r c) Hr2 Hc2 S1) as [o2 [E2 S2]]. exists o2. split; [exact E2|exact S2].
Qed.
Lemma swaps_ok : forall w h pic out, 0 < w -> Z.even w = true -> 0 <= h -> Z.even h = true -> Shows w h (samsung_turned pic) out ->
  exists out', rfold (fun row => rfold (fun col out => swap out (row * w + col + 1) ((row + 1) * w + col)) (zrange_step 0 w 2)) (zrange_step 0 h 2) out = Ok out' /\ Shows w h pic out'.
Proof.
  intros w h pic out Hw Ew Hh Eh HS. rewrite evm in Ew, Eh.
  assert (St : forall n, n mod 2 = 0 -> zrange_step 0 n 2 = map (fun j => 2 * j) (zrange 0 (n / 2))).
  { intros n Hn. unfold zrange_step, zrange. rewrite map_map. replace ((n - 0 + 2 - 1) / 2) with (n / 2) by lia. rewrite Z.sub_0_r. apply map_ext. intros j. lia. }
  rewrite (St h) by lia. rewrite rfold_map. set (f := fun a b r c => if (r / 2 <? a) || (r / 2 =? a) && (c / 2 <? b) then pic r c else samsung_turned pic r c).
  match goal with |- context [rfold ?g (zrange 0 (h / 2)) ?st0] => destruct (rfold_zrange g (fun a => Shows w h (f a 0)) 0 (h / 2) st0) as [o1 [E1 S1]] end.
  - lia.
  - eapply Shows_ext; [|exact HS]. intros r c Hr Hc. unfold f. destruct ((r / 2 <? 0) || (r / 2 =? 0) && (c / 2 <? 0)) eqn:Q; [lia|reflexivity].
  - intros a o Ha So. rewrite (St w) by lia. rewrite rfold_map.
    match goal with |- context [rfold ?g (zrange 0 (w / 2)) ?st0] => destruct (rfold_zrange g (fun b => Shows w h (f a b)) 0 (w / 2) st0) as [o1 [E1 S1]] end.
    + lia.
    + exact So.
    + intros b o2 Hb S2. replace (2 * a * w + 2 * b + 1) with (2 * a * w + (2 * b + 1)) by lia.
      destruct (swap_ok w h (f a b) o2 (2 * a) (2 * b + 1) (2 * a + 1) (2 * b)) as [o3 [E3 S3]]; try lia; [exact S2|]. exists o3. split; [exact E3|].
      eapply Shows_ext; [|exact S3]. intros r c Hr Hc. cbv beta. unfold f, samsung_turned. rewrite <- !Z.negb_even, !evm.
      destruct ((r =? 2 * a + 1) && (c =? 2 * b)) eqn:Q1.
      { assert (r = 2 * a + 1 /\ c = 2 * b) as [-> ->] by lia. replace ((2 * a / 2 <? a) || (2 * a / 2 =? a) && ((2 * b + 1) / 2 <? b)) with false by lia.
        replace (((2 * a + 1) / 2 <? a) || ((2 * a + 1) / 2 =? a) && (2 * b / 2 <? b + 1)) with true by lia.
        replace (2 * a mod 2 =? 0) with true by lia. replace ((2 * b + 1) mod 2 =? 0) with false by lia. cbn [negb andb]. f_equal; lia. }
      destruct ((r =? 2 * a) && (c =? 2 * b + 1)) eqn:Q2.
      { assert (r = 2 * a /\ c = 2 * b + 1) as [-> ->] by lia. replace (((2 * a + 1) / 2 <? a) || ((2 * a + 1) / 2 =? a) && (2 * b / 2 <? b)) with false by lia.
        replace ((2 * a / 2 <? a) || (2 * a / 2 =? a) && ((2 * b + 1) / 2 <? b + 1)) with true by lia.
        replace (2 * b mod 2 =? 0) with true by lia. replace ((2 * a + 1) mod 2 =? 0) with false by lia. cbn [negb andb]. f_equal; lia. }
      destruct ((r / 2 =? a) && (c / 2 =? b)) eqn:Q3.
      * replace ((r / 2 <? a) || (r / 2 =? a) && (c / 2 <? b)) with false by lia. replace ((r / 2 <? a) || (r / 2 =? a) && (c / 2 <? b + 1)) with true by lia.
        assert (T : r mod 2 = 0 /\ c mod 2 = 0 \/ r mod 2 = 1 /\ c mod 2 = 1) by lia. destruct T as [[-> ->]|[-> ->]]; reflexivity.
      * replace ((r / 2 <? a) || (r / 2 =? a) && (c / 2 <? b + 1)) with ((r / 2 <? a) || (r / 2 =? a) && (c / 2 <? b)) by lia. reflexivity.
    + exists o1. split; [exact E1|]. eapply Shows_ext; [|exact S1]. intros r c Hr Hc. unfold f.
      replace ((r / 2 <? a) || (r / 2 =? a) && (c / 2 <? w / 2)) with ((r / 2 <? a + 1) || (r / 2 =? a + 1) && (c / 2 <? 0)) by lia. reflexivity.
  - exists o1. split; [exact E1|]. eapply Shows_ext; [|exact S1]. intros r c Hr Hc. unfold f. replace ((r / 2 <? h / 2) || (r / 2 =? h / 2) && (c / 2 <? 0)) with true by lia. reflexivity.
Qed.

Lemma srw1_ok : forall {M : Mode} w h pic up op len diff buf offsets rest, 16 <= w -> Z.even w = true -> 2 <= h -> Z.even h = true -> sample_picture pic w h ->
  samsung_fits (samsung_turned pic) up op len diff w h -> bytes offsets -> 4 * h <= zlen offsets ->
  (forall r, 0 <= r < h -> let o := little_endian_value (firstn 4 (skipn (Z.to_nat (4 * r)) offsets)) in
    o <= zlen buf /\ readable MSB32 (skipn (Z.to_nat o) buf) /\ stream MSB32 (skipn (Z.to_nat o) buf) 0 = samsung_row up op len diff w r ++ rest r) ->
  exists out, decode_srw1 buf offsets w h = Ok out /\ is_image out w h pic.
Proof.
  intros M w h pic up op len diff buf offsets rest Hw Ew Hh Eh Hp Hf Hb Ho Hr. unfold decode_srw1.
  assert (Hs : forall r c, 0 <= r < h -> 0 <= c < w -> sample (samsung_turned pic r c)).
  { intros r c Hr' Hc. unfold samsung_turned. rewrite <- !Z.negb_even, !evm. rewrite evm in Ew, Eh.
    destruct (r mod 2 =? 0) eqn:E1, (c mod 2 =? 0) eqn:E2; cbn [negb andb]; apply Hp; lia. }
  match goal with |- context [rfold ?g (zrange 0 h) ?st0] => destruct (rfold_zrange g (fun r => Cells w h (samsung_turned pic) (Wr r 0 0 0)) 0 h st0) as [o1 [E1 S1]] end.
  - lia.
  - split; [unfold zlen, zeros; rewrite repeat_length; lia|]. intros r c Hr' Hc. unfold Wr. replace ((r <? 0) || (r =? 0) && ((c <? 16 * 0) || (if c mod 2 =? 0 then c <? 16 * 0 + 2 * 0 else c <? 16 * 0 + 2 * 0))) with false by (destruct (c mod 2 =? 0); lia).
    unfold znth, zeros. apply nth_repeat.
  - intros r o Hr' So. destruct (Hr r Hr') as [B [Rd Es]]. replace (r * 4) with (4 * r) by lia. rewrite LEu32_spec by (assumption || lia). cbn [bind]. change (sub_list offsets (4 * r) 4) with (firstn 4 (skipn (Z.to_nat (4 * r)) offsets)).
    set (off := little_endian_value (firstn 4 (skipn (Z.to_nat (4 * r)) offsets))) in *.
    assert (0 <= off) by (apply (proj1 (little_endian_value_range _ (sub_list_bytes offsets (4 * r) 4 Hb)))).
    rewrite slice_from_ok by lia. cbn [bind].
    destruct (srw1_row_ok w h (samsung_turned pic) up op len diff Hw Hh Hs Hf r _ o (rest r) Hr' Rd Es So) as [p' [l' [o' [E C]]]]. rewrite E. cbn [bind]. exists o'. split; [reflexivity|exact C].
  - rewrite E1. cbn [bind]. destruct (swaps_ok w h pic o1 ltac:(lia) Ew ltac:(lia) Eh) as [o2 [E2 S2]].
    + destruct S1 as [L V]. split; [exact L|]. intros r c Hr' Hc. rewrite V by assumption. replace (Wr h 0 0 0 r c) with true by (unfold Wr; lia). reflexivity.
    + exists o2. split; [exact E2|]. destruct S2 as [L V]. split; [exact L|]. intros r c Hr' Hc. rewrite <- V by assumption. reflexivity.
Qed.

(** ** Odd heights *)
Lemma swap_length : forall out i j o, swap out i j = Ok o -> zlen o = zlen out /\ 0 <= j < zlen out.
Proof.
  intros out i j o H. unfold swap in H. apply bind_inv in H. destruct H as [a [Ea H]]. apply bind_inv in H. destruct H as [b [Eb H]]. apply bind_inv in H. destruct H as [o1 [E1 H]].
  apply upd_inv in E1. destruct E1 as [_ ->]. apply upd_inv in H. destruct H as [B ->]. rewrite !zlen_upd_nat in *. split; [reflexivity|exact B].
Qed.
Lemma srw1_odd : forall {M : Mode} buf offsets w h out, 0 < w -> 0 < h -> Z.odd h = true -> decode_srw1 buf offsets w h <> Ok out.
Proof.
  intros M buf offsets w h out Hw Hh Eh E. unfold decode_srw1 in E. apply bind_inv in E. destruct E as [o [E1 E2]].
  assert (P : pic (w * h) o).
  { revert o E1 E2. match goal with |- forall o, ?r = Ok o -> _ => assert (A : always (pic (w * h)) r) end.
    { apply (always_rfold (pic (w * h))); [|apply pic_zeros; nia]. intros row o Hin Ho. sh. fold_with (fun s : pump * list Z * list Z => pic (w * h) (snd s)); [apply srw1_group_pic; assumption|assumption|]. cbn [snd] in *. sh. }
    intros o E1 _. exact (A o E1). }
  destruct P as [L _]. rewrite <- Z.negb_even, evm in Eh.
  assert (In2 : forall n k, 0 <= k -> k < n -> k mod 2 = 0 -> In k (zrange_step 0 n 2)).
  { intros n k H0 H1 H2. unfold zrange_step. apply in_map_iff. exists (Z.to_nat (k / 2)). split; [lia|]. apply in_seq. lia. }
  refine (rfold_stuck _ (fun o => zlen o = w * h) _ (h - 1) o out _ L (In2 h (h - 1) ltac:(lia) ltac:(lia) ltac:(lia)) _ E2).
  - intros row s1 s2 _ L1 R1. refine (rfold_inv _ (fun o => zlen o = w * h) _ s1 s2 _ L1 R1). intros col t1 t2 _ L2 R2. apply swap_length in R2. lia.
  - intros s1 s2 L1 R1. refine (rfold_stuck _ (fun o => zlen o = w * h) _ 0 s1 s2 _ L1 (In2 w 0 ltac:(lia) ltac:(lia) ltac:(lia)) _ R1).
    + intros col t1 t2 _ L2 R2. apply swap_length in R2. lia.
    + intros t1 t2 L2 R2. apply swap_length in R2. destruct R2 as [_ B]. nia.
Qed.
