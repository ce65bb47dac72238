(** Proofs about lossless JPEG: example files. *)
From Coq Require Import String ZArith List Bool Lia ZifyBool ZifyNat.
From Verif Require Import Base Bytes Pumps ByteStream Threads Packed Huffman Ljpeg Spec_Bits Spec_Pump Spec_Stream Spec_Huffman Spec_Ljpeg
  P_Base P_Bits P_Pumps P_Huff4 P_Huff5 P_Huff6 P_Huff7 P_Ljpeg1 P_Ljpeg2 P_Ljpeg3 P_Ljpeg4 P_Ljpeg5 P_Ljpeg6.
Import ListNotations.
Local Open Scope Z_scope.
Ltac Zify.zify_post_hook ::= Z.div_mod_to_equations.

(** The table of JPEG's annex K.3 for luminance DC. *)
Definition dc_code : hcode := mkcode [0; 1; 5; 1; 1; 1; 1; 1; 1; 0; 0; 0; 0; 0; 0; 0] [0; 1; 2; 3; 4; 5; 6; 7; 8; 9; 10; 11].
Lemma dc_good : forall dbg, good_code dbg 14 dc_code.
Proof.
  intros dbg. split; [table_tac|]. split; [split; [reflexivity|repeat constructor; discriminate]|].
  split; [intros _; left; reflexivity|]. split; [left; lia|].
  intros j Hj. change (length (lengths (hc_counts dc_code))) with 12%nat in Hj. do 12 (destruct j as [|j]; [cbn; lia|]). lia.
Qed.
Ltac dc_word := split; [vm_compute; repeat (first [left; reflexivity | right])|left; apply Nat.leb_le; vm_compute; reflexivity].

(** The hypotheses about example files. *)
Ltac zcomp := split; vm_compute; first [reflexivity|discriminate].
Ltac ncomp := split; apply Nat.leb_le; reflexivity.
Lemma four_components : forall M : Mode, exists file lj pic out out',
  ljpeg_new file = Ok lj /\ lj_width lj = 4 /\ lj_height lj = 2 /\
  (exists out'', ljpeg_decode lj (zeros 8) 0 4 4 2 = Ok out'' /\ pasted 4 0 4 1 2 pic (zeros 8) out'') /\
  ljpeg_decode lj out 0 8 4 2 = Ok out' /\ ~ pasted 4 0 8 1 2 pic out out'.
Proof.
  intros M. set (pic := (fun r j i => 8192 + r) : picture).
  destruct (file_round_trip [dc_code] 14 1 2 [1; 2; 3; 4] [0; 0; 0; 0] 0 [0; 85; 85] [] false false pic [])
    as [lj [E [Ew [Eh H]]]].
  - ncomp.
  - constructor; [apply dc_good|constructor].
  - discriminate.
  - zcomp.
  - zcomp.
  - zcomp.
  - zcomp.
  - zcomp.
  - repeat constructor; cbn [In]; lia.
  - reflexivity.
  - repeat constructor; cbn [length]; lia.
  - discriminate.
  - repeat constructor; discriminate.
  - constructor.
  - discriminate.
  - zcomp.
  - intros r j i Hr Hj Hi. unfold pic, sample. cbn [length] in Hi. lia.
  - intros r j i Hr Hj Hi. cbn [length] in Hi.
    assert (r = 0 \/ r = 1) as [R|R] by lia; assert (j = 0) by lia; assert (i = 0 \/ i = 1 \/ i = 2 \/ i = 3) as [I|[I|[I|I]]] by lia; subst; dc_word.
  - vm_compute. reflexivity.
  - change (Z.of_nat (length [1; 2; 3; 4])) with 4 in *. change (4 * 1) with 4 in *.
    destruct (H (zeros 8) 0 4 1 2 ltac:(lia) ltac:(lia) ltac:(lia) ltac:(lia) ltac:(vm_compute; discriminate) ltac:(lia)) as [o1 [E1 P1]].
    destruct (H (zeros 16) 0 4 1 2 ltac:(lia) ltac:(lia) ltac:(lia) ltac:(lia) ltac:(vm_compute; discriminate) ltac:(lia)) as [o2 [E2 P2]].
    exists (jpeg_file [dc_code] 14 1 2 [1; 2; 3; 4] [0; 0; 0; 0] 0 [0; 85; 85] []), lj, pic, (zeros 16), o2.
    split; [exact E|]. split; [exact Ew|]. split; [exact Eh|]. split; [exists o1; split; assumption|]. split.
    + assert (C4 : s_cps (lj_sof lj) = 4).
      { destruct (new_file [dc_code] 14 1 2 [1; 2; 3; 4] [0; 0; 0; 0] 0 [0; 85; 85] [] false false) as [lj' [E' [_ [_ [_ [[cs [Es _]] _]]]]]].
        - ncomp.
        - constructor; [apply dc_good|constructor].
        - zcomp.
        - zcomp.
        - zcomp.
        - zcomp.
        - ncomp.
        - repeat constructor; cbn [In]; lia.
        - reflexivity.
        - repeat constructor; cbn [length]; lia.
        - discriminate.
        - rewrite E in E'. apply Ok_inj in E'. subst lj'. rewrite Es. reflexivity. }
      unfold ljpeg_decode in *. cbv zeta in *.
      destruct (get (s_comps (lj_sof lj)) 0) as [c0| | |]; [|discriminate|discriminate|discriminate]. cbn [bind] in *.
      destruct ((c_super_h c0 =? 2) && (c_super_v c0 =? 2)); [exact E2|]. destruct ((c_super_h c0 =? 2) && (c_super_v c0 =? 1)); [exact E2|].
      destruct (lj_pred lj =? 1); [|exact E2].
      destruct (s_cps (lj_sof lj) =? 2) eqn:C2.
      { rewrite C4 in C2. discriminate. }
      destruct (s_cps (lj_sof lj) =? 3) eqn:C3.
      { rewrite C4 in C3. discriminate. }
      exact E2.
    + intros [L [A B]]. destruct P2 as [L2 [A2 B2]]. specialize (A 1 0 0 ltac:(lia) ltac:(lia) ltac:(lia)).
      specialize (B2 8%nat). change (Z.to_nat (1 * 8 + 0 + 4 * 0 + 0)) with 8%nat in A. rewrite B2 in A; [vm_compute in A; discriminate|]. intros r c Hr Hc. lia.
Qed.

Lemma odd_width : forall M : Mode, exists lj out, s_cps (lj_sof lj) = 2 /\ s_width (lj_sof lj) = 2 /\
  lj_pred lj = 1 /\ length out = 3%nat /\
  (exists file, ljpeg_new file = Ok lj) /\
  is_ok (ljpeg_decode lj (out ++ [0]) 0 4 4 1) = true /\
  ljpeg_decode lj out 0 3 3 1 = Panic.
Proof.
  intros M. set (pic := (fun r j i => 8192 + r + j) : picture).
  destruct (new_file [dc_code] 14 2 1 [1; 2] [0; 0] 0 [5; 95] [] false false)
    as [lj [E [Eb [Epr [Ept [[comps [Es Ec]] Et]]]]]].
  - ncomp.
  - constructor; [apply dc_good|constructor].
  - zcomp.
  - zcomp.
  - zcomp.
  - zcomp.
  - ncomp.
  - repeat constructor; cbn [In]; lia.
  - reflexivity.
  - repeat constructor; cbn [length]; lia.
  - discriminate.
  - destruct (file_round_trip [dc_code] 14 2 1 [1; 2] [0; 0] 0 [5; 95] [] false false pic [true; true; true; true])
      as [lj' [E' [Ew [Eh H]]]].
    + ncomp.
    + constructor; [apply dc_good|constructor].
    + discriminate.
    + zcomp.
    + zcomp.
    + zcomp.
    + zcomp.
    + zcomp.
    + repeat constructor; cbn [In]; lia.
    + reflexivity.
    + repeat constructor; cbn [length]; lia.
    + discriminate.
    + repeat constructor; discriminate.
    + constructor.
    + discriminate.
    + zcomp.
    + intros r j i Hr Hj Hi. unfold pic, sample. cbn [length] in Hi. lia.
    + intros r j i Hr Hj Hi. cbn [length] in Hi.
      assert (r = 0) by lia; assert (j = 0 \/ j = 1) as [J|J] by lia; assert (i = 0 \/ i = 1) as [I|I] by lia; subst; dc_word.
    + vm_compute. reflexivity.
    + rewrite E in E'. apply Ok_inj in E'. subst lj'.
      change (Z.of_nat (length [1; 2])) with 2 in *. change (2 * 2) with 4 in *.
      destruct (H (zeros 3 ++ [0]) 0 4 2 1 ltac:(lia) ltac:(lia) ltac:(lia) ltac:(lia) ltac:(vm_compute; discriminate) ltac:(lia)) as [o1 [E1 _]].
      exists lj, (zeros 3). rewrite Es. split; [reflexivity|]. split; [reflexivity|]. split; [exact Epr|]. split; [reflexivity|].
      split; [eexists; exact E|]. split; [change (2 * 2) with 4 in E1; rewrite E1; reflexivity|].
      unfold ljpeg_decode. rewrite Es, Epr. cbn [s_comps s_cps]. rewrite Ec. cbn [combine map]. unfold get at 1. cbn [zlen].
      change ((0 <=? 0) && (0 <? zlen [comp1 (1, 0); comp1 (2, 0)])) with true. cbn iota. cbn [Z.to_nat nth_error bind comp1 c_super_h c_super_v fst snd].
      change (1 =? 2) with false. cbn [andb]. change (1 =? 1) with true. cbn iota. change (2 =? 2) with true. cbn iota.
      apply (odd_width_panics lj false (fun _ => dc_code) pic (zeros 3) (stuff [5; 95] ++ [255; 217] ++ []) 32 ([true; true; true; true] ++ repeat false 32)).
      * rewrite Es. reflexivity.
      * rewrite Es. cbn. lia.
      * rewrite Es, Ept. cbn. lia.
      * rewrite Es. cbn. lia.
      * intros i Hi. rewrite Es. cbn [s_precision]. split; [apply dc_good|]. split; [discriminate|].
        assert (EC : nth (Z.to_nat (nth 0 [0; 0] 0)) [dc_code] (mkcode [] []) = dc_code) by reflexivity.
        assert (EC' : nth (Z.to_nat (nth 1 [0; 0] 0)) [dc_code] (mkcode [] []) = dc_code) by reflexivity.
        assert (i = 0 \/ i = 1) as [I|I] by lia; subst i.
        { destruct (Et 0%nat ltac:(apply Nat.ltb_lt; reflexivity)) as [t [G1 G2]]. cbv zeta in G2. rewrite EC in G2. exists t. split; [exact G1|exact G2]. }
        { destruct (Et 1%nat ltac:(apply Nat.ltb_lt; reflexivity)) as [t [G1 G2]]. cbv zeta in G2. rewrite EC' in G2. exists t. split; [exact G1|exact G2]. }
      * exact Eb.
      * split; [repeat constructor; discriminate|]. intros _. split; [split; [discriminate|reflexivity]|discriminate].
      * rewrite Es, Ept. vm_compute. reflexivity.
      * rewrite app_length, repeat_length. cbn. lia.
      * intros r j i Hr Hj Hi. unfold pic, sample. rewrite Es in Hr. cbn in Hr. lia.
      * rewrite Es, Ept. intros r j i Hr Hj Hi. cbn [s_height] in Hr. cbn [length] in Hi. cbn [s_precision].
        assert (r = 0) by lia; assert (j = 0 \/ j = 1) as [J|J] by lia; assert (i = 0 \/ i = 1) as [I|I] by lia; subst; dc_word.
      * reflexivity.
Qed.
