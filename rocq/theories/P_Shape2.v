(** Proofs about the size of decoded images (C45): the other decompressors and
    the arrangement of the samples. *)
From Coq Require Import String ZArith List Bool Lia ZifyBool ZifyNat.
From Verif Require Import Base Num F32 Bytes Pumps Huffman Threads Lookup Packed Ljpeg Tiff Ciff Image Camera Arw Raf Mos Cr2 Decoder.
From Verif Require Import Dec_Simple Dec_Header Dec_Crw Dec_Pred Dec_Nef Dec_Ljpeg.
From Verif Require Import Spec_Bits P_Base P_Threads P_Always P_Shape1.
Import ListNotations.
Local Open Scope Z_scope.
#[global] Hint Resolve ljpeg_pic leaf_pic arw1_pic arw2_pic iiq_pic pef_pic orf_pic pana_pic nef_pic srw1_pic srw2_pic srw3_pic snef_pic u16add_sample : shape.

Section Shape.
Context {M : Mode}.

(** ** Canon CRW *)
Lemma crw_pixels_pic : forall w d n base pnum o, pic n o -> always (fun '(_, _, o) => pic n o) (crw_pixels w d (base, pnum, o)).
Proof.
  intros. unfold crw_pixels. apply (always_rfold (fun s : list Z * Z * list Z => let '(_, _, o) := s in pic n o)); [|assumption].
  intros i [[b pn] px] _ P. sh.
Qed.
Lemma crw_high_pic : forall ts src w h, 0 <= w -> 0 <= h -> always (pic (w * h)) (crw_high ts src w h).
Proof.
  intros. unfold crw_high.
  eapply (always_bindP (fun st => pic (w * h) (snd st))).
  - apply (grow (fun pixout '(p, carry, base, pnum, done) =>
      '(diffbuf, p) <- crw_block 65 ts 0 (zeros 64) p ;;
      d <- get diffbuf 0 ;; carry <- i32add d carry ;; diffbuf <- upd diffbuf 0 carry ;;
      '(base, pnum, pixout) <- crw_pixels w diffbuf (base, pnum, pixout) ;;
      Ok (p, carry, base, pnum, done ++ pixout))).
    + intros c [[[p ca] base] pn] done. do 4 skip. apply always_bind. intros [[b' pn'] o] E. apply always_Ok. exists o. split; [reflexivity|].
      intros F. eapply crw_pixels_pic in E; [exact E|]. split; [reflexivity|exact F].
    + cbn [snd]. rewrite app_nil_l, chunks_concat by lia. apply pic_zeros. nia.
  - intros [[[[? ?] ?] ?] o] P. apply always_Ok. exact P.
Qed.
Lemma crw_low_sample : forall w o b, always sample (crw_low w o b).
Proof.
  intros. unfold crw_low. cbv zeta. sh1; [apply u16add_sample|]. apply always_Ok. pose proof (sample_u16 (Z.shiftl o 2)) as S. unfold sample in *.
  assert (0 <= b &&& 3 < 4) by (change (b &&& 3) with (Z.land b (Z.ones 2)); rewrite Z.land_ones by lia; apply Z.mod_pos_bound; lia).
  split; [apply Z.lor_nonneg; lia|]. destruct (Z.eq_dec (Z.lor (as_u16 (Z.shiftl o 2)) (b &&& 3)) 0) as [->|N]; [lia|].
  assert (0 < Z.lor (as_u16 (Z.shiftl o 2)) (b &&& 3)) by (assert (0 <= Z.lor (as_u16 (Z.shiftl o 2)) (b &&& 3)) by (apply Z.lor_nonneg; lia); lia).
  change 65536 with (2 ^ 16). apply Z.log2_lt_pow2; [lia|]. rewrite Z.log2_lor by lia. apply Z.max_lub_lt.
  - destruct (Z.eq_dec (as_u16 (Z.shiftl o 2)) 0) as [->|]; [reflexivity|]. apply Z.log2_lt_pow2; lia.
  - destruct (Z.eq_dec (b &&& 3) 0) as [->|]; [reflexivity|]. apply Z.log2_lt_pow2; lia.
Qed.
Lemma chunk_short : forall {A} (l : list A), Forall (fun c => (length c <= 4)%nat) (chunks 4 l).
Proof.
  intros A l. remember (length l) as k eqn:E. revert l E. induction k as [k IH] using lt_wf_ind. intros l E. destruct l as [|x t]; [constructor|].
  rewrite chunks_cons by (lia || discriminate). constructor; [rewrite firstn_length; lia|]. eapply IH; [|reflexivity]. subst. rewrite skipn_length. cbn [length]. lia.
Qed.
Lemma crw_lows_pic : forall buf w n out, pic n out -> always (pic n) (crw_lows buf w out).
Proof.
  intros buf w n out [L F]. unfold crw_lows.
  apply (always_bindP (Forall2 (fun a b => length b = length a /\ Forall sample b) (chunks 4 out))).
  - unfold enumerate. apply combine_same; [unfold zlen; rewrite zrange_length; lia|]. intros k x I. apply in_combine_r in I.
    pose proof (chunk_short out) as C. rewrite Forall_forall in C. specialize (C x I).
    do 4 skip. apply always_bind. intros o3 E3. apply get_ok_inv in E3. destruct E3 as [E3 _]. unfold zlen in E3.
    intros v Hv. split; [apply mapM_length in Hv; cbn [length] in Hv; lia|].
    revert v Hv. apply always_mapM. intros [o s] _. apply crw_low_sample.
  - intros ls G. apply always_Ok. split.
    + rewrite <- L. unfold zlen. rewrite (same_length_concat (chunks 4 out) ls); [rewrite chunks_concat by lia; reflexivity|].
      clear -G. induction G; constructor; tauto.
    + clear -G. induction G; cbn [concat]; [constructor|]. apply Forall_app. tauto.
Qed.
Lemma crw_pic : forall buf ciff cam w h, 0 <= w -> 0 <= h -> always (pic (w * h)) (crw_decompress buf ciff cam w h).
Proof.
  intros. unfold crw_decompress. sh1. sh1. sh1; [sh|]. cbv zeta. sh1. sh1. apply (always_bindP (pic (w * h))); [apply crw_high_pic; assumption|].
  intros out P. sh1; [apply crw_lows_pic; exact P|]. sh.
Qed.

(** ** Kodak *)
Lemma dcr_pic : forall buf curve w h, 0 <= w -> 0 <= h -> always (pic (w * h)) (decode_kodak65000 buf curve w h).
Proof.
  intros. unfold decode_kodak65000. fold_with (fun s : bstream * Z * list Z => let '(_, _, o) := s in pic (w * h) o); [|apply pic_zeros; nia|sh].
  fold_with (fun s : bstream * Z * list Z => let '(_, _, o) := s in pic (w * h) o); [|assumption]. sh1. unfold dcr_pixels.
  eapply (always_bindP (fun s : Z * list Z => let '(_, o) := s in pic (w * h) o)).
  - fold_with (fun s : list Z * Z * list Z => let '(_, _, o) := s in pic (w * h) o); [sh|assumption|sh].
  - intros [r o] P. sh.
Qed.

(** ** Fuji *)
Lemma usub_nonneg : forall a b, always (fun v => 0 <= v) (usub a b).
Proof. intros a b v E. unfold usub in E. apply arith_u_range in E; lia. Qed.
Lemma rotated_pic : forall n src alt crops w h, pic n src ->
  always (fun '(w, h, o) => 0 <= w /\ 0 <= h /\ pic (w * h) o) (rotate_image src alt crops w h).
Proof.
  intros n src alt [[[c0 c1] c2] c3] w h P. unfold rotate_image. cbv beta iota zeta.
  apply (always_bindP (fun v => 0 <= v)); [apply usub_nonneg|]. intros w1 W1. apply (always_bindP (fun v => 0 <= v)); [apply usub_nonneg|]. intros cw CW.
  apply (always_bindP (fun v => 0 <= v)); [apply usub_nonneg|]. intros h1 H1. apply (always_bindP (fun v => 0 <= v)); [apply usub_nonneg|]. intros ch CH.
  assert (G : forall a s, slice_from src a = Ok s -> pic (zlen s) s).
  { intros a s E. apply slice_from_inv in E. destruct E as [_ ->]. split; [reflexivity|]. apply Forall_skipn. apply P. }
  assert (0 <= cw / 2) by (apply Z.div_pos; lia). assert (0 <= ch / 2) by (apply Z.div_pos; lia).
  destruct alt; [unfold rotate_alt|unfold rotate_normal]; cbv zeta; (apply (always_bindP (fun v => 0 <= v)); [apply usub_nonneg|]); intros rh RH.
  - fold_with (pic ((ch + cw / 2) * rh)); [|apply pic_zeros; nia|apply always_Ok; split; [lia|split; [exact RH|assumption]]].
    apply always_bind. intros inb E. apply G in E. fold_with (pic ((ch + cw / 2) * rh)); [sh|assumption].
  - fold_with (pic ((cw + ch / 2) * rh)); [|apply pic_zeros; nia|apply always_Ok; split; [lia|split; [exact RH|assumption]]].
    apply always_bind. intros inb E. apply G in E. fold_with (pic ((cw + ch / 2) * rh)); [sh|assumption].
Qed.

(** ** Leaf *)
Lemma interlace_pic : forall n src w h, 0 <= w -> 0 <= h -> pic n src -> always (pic (w * h)) (mos_interlace src w h).
Proof.
  intros n src w h W H P. unfold mos_interlace. cbv zeta. sh1; [sh|].
  apply (always_rfold (pic (w * h))); [|apply pic_zeros; nia]. intros [row line] o I Po. skip. apply pic_copy_at; [exact Po|].
  apply enumerate_In in I. destruct I as [_ I]. pose proof (chunks_all sample (Z.to_nat w) src ltac:(lia) (proj2 P)) as C. rewrite Forall_forall in C. exact (C line I).
Qed.

(** ** Canon CR2 *)
Lemma linearize_pic : forall tbl l r n, zlen l = n -> always (pic n) (linearize tbl l r).
Proof.
  intros tbl l. induction l as [|v t IH]; intros r n L; cbn [linearize]; [apply always_Ok; split; [exact L|constructor]|].
  eapply always_bindP; [apply dither_sample|]. intros [p r'] S. eapply always_bindP; [apply (IH r' (zlen t) eq_refl)|]. intros o [Lo Fo]. apply always_Ok.
  split; [unfold zlen in *; cbn [length] in *; lia|]. constructor; assumption.
Qed.
Lemma yuv_samples : forall a b c d p, always (fun l => length l = 3%nat /\ Forall sample l) (yuv_to_rgb a b c d p).
Proof.
  intros. unfold yuv_to_rgb. repeat skip. apply always_Ok. split; [reflexivity|]. constructor; [apply sample_u16|constructor; [apply sample_u16|constructor; [apply sample_u16|constructor]]].
Qed.
Lemma chunk_short3 : forall {A} (l : list A), Forall (fun c => (length c <= 3)%nat) (chunks 3 l).
Proof.
  intros A l. remember (length l) as k eqn:E. revert l E. induction k as [k IH] using lt_wf_ind. intros l E. destruct l as [|x t]; [constructor|].
  rewrite chunks_cons by (lia || discriminate). constructor; [rewrite firstn_length; lia|]. eapply IH; [|reflexivity]. subst. rewrite skipn_length. cbn [length]. lia.
Qed.
Lemma mapM_rel : forall {A B} (R : A -> B -> Prop) (f : A -> res B) l, (forall x, In x l -> always (R x) (f x)) -> always (Forall2 R l) (mapM f l).
Proof.
  intros A B R f l. induction l as [|x t IH]; intros F; cbn [mapM]; [apply always_Ok; constructor|].
  eapply always_bindP; [apply F; left; reflexivity|]. intros y Hy. eapply always_bindP; [apply IH; intros z Hz; apply F; right; exact Hz|].
  intros r Hr. apply always_Ok. constructor; assumption.
Qed.
Lemma rgb_pic : forall t cam n out, pic n out -> always (pic n) (convert_to_rgb t cam out).
Proof.
  intros t cam n out [L F]. unfold convert_to_rgb. sh1. cbv zeta.
  apply (always_bindP (Forall2 (fun a b => length b = length a /\ Forall sample b) (chunks 3 out))).
  - apply mapM_rel. intros x I. intros v E. pose proof (yuv_samples _ _ _ _ _ v E) as [L3 S]. split; [|exact S].
    pose proof (chunk_short3 out) as C. rewrite Forall_forall in C. specialize (C x I).
    assert (3 <= zlen x).
    { unfold yuv_to_rgb in E. apply bind_inv in E. destruct E as [? [_ E]]. apply bind_inv in E. destruct E as [? [_ E]]. apply bind_inv in E. destruct E as [? [_ E]].
      apply bind_inv in E. destruct E as [? [_ E]]. apply bind_inv in E. destruct E as [p2 [E2 _]]. apply get_ok_inv in E2. lia. }
    unfold zlen in *. lia.
  - intros ls G. apply always_Ok. split.
    + rewrite <- L. unfold zlen. rewrite (same_length_concat (chunks 3 out) ls); [rewrite chunks_concat by lia; reflexivity|].
      clear -G. induction G; constructor; tauto.
    + clear -G. induction G; cbn [concat]; [constructor|]. apply Forall_app. tauto.
Qed.
Lemma cr2_linearize_pic : forall t cam n out, pic n out -> always (pic n) (cr2_linearize t cam out).
Proof. intros t cam n out P. unfold cr2_linearize. sh1; [|sh]. repeat skip. apply linearize_pic. apply P. Qed.
Lemma stripes_v2_pic : forall n src lw w h fs, 0 <= w -> 0 <= h -> pic n src -> always (pic (w * h)) (stripes_v2 src lw w h fs).
Proof.
  intros n src lw w h fs W H P. unfold stripes_v2. cbv zeta. sh1.
  fold_with (fun s : Z * Z * list Z => let '(_, _, o) := s in pic (w * h) o); [|apply pic_zeros; nia|sh].
  fold_with (fun s : Z * list Z => let '(_, o) := s in pic (w * h) o); [|assumption|sh].
  fold_with (fun s : Z * list Z => let '(_, o) := s in pic (w * h) o); [|assumption]. unfold stripe_pair. cbv zeta.
  apply (always_bindP (Forall sample)); [eapply pic_slice; exact P|]. intros s1 S1. eapply always_bindP; [apply pic_copy_at; eassumption|]. intros o1 P1.
  apply (always_bindP (Forall sample)); [eapply pic_slice; exact P|]. intros s2 S2. eapply always_bindP; [apply pic_copy_at; eassumption|]. intros o2 P2. sh.
Qed.
Lemma stripes_v1_pic : forall n src w h sh cpp fs, 0 <= w -> 0 <= h -> pic n src -> always (pic (w * h)) (stripes_v1 src w h sh cpp fs).
Proof.
  intros n src w h sx cpp fs W H P. unfold stripes_v1. cbv zeta.
  fold_with (fun s : Z * Z * list Z => let '(_, _, o) := s in pic (w * h) o); [|apply pic_zeros; nia|sh]. sh1; [sh|].
  fold_with (pic (w * h)); [|assumption|sh]. unfold stripe_line. cbv zeta. sh1.
  apply (always_bindP (Forall sample)); [eapply pic_slice; exact P|]. intros s1 S1. apply pic_copy_at; assumption.
Qed.

(** ** DNG *)
Lemma dng_compressed_pic : forall buf raw w h cpp, 0 <= w -> 0 <= h -> (forall tl, tag_usize raw T_TileLength = Ok tl -> 0 <= tl) ->
  always (pic (w * h)) (dng_compressed buf raw w h cpp).
Proof.
  intros buf raw w h cpp W H T. unfold dng_compressed. sh1.
  - sh1; [sh|]. do 3 sh1. apply ljpeg_pic; [lia|apply pic_zeros; nia].
  - sh1; [|sh]. sh1. sh1. apply always_bind. intros tl E. specialize (T tl E). sh1. sh1; [sh|]. sh1. sh1; [sh|]. cbv zeta. sh1. sh1; [sh|].
    apply multiline_pic; [lia|lia|lia|]. intros m line row R P. apply (always_rfold (pic m)); [|exact P]. intros col o _ Po. unfold dng_tile. do 3 sh1.
    apply (always_bindP (fun v => 0 <= v)); [apply usub_nonneg|]. intros bw BW. sh1. apply always_unwrap. apply ljpeg_pic; assumption.
Qed.
End Shape.
