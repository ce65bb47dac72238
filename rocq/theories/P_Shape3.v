(** Proofs about the size of decoded images (C45): every format. *)
From Coq Require Import String ZArith List Bool Lia ZifyBool ZifyNat.
From Verif Require Import Base Num F32 Bytes Pumps Huffman Threads Lookup Packed Ljpeg Tiff Ciff Image Camera Clients Arw Raf Mos Cr2 Decoder.
From Verif Require Import Dec_Simple Dec_Header Dec_Crw Dec_Pred Dec_Nef Dec_Ljpeg Dispatch.
From Verif Require Import Spec_Bits Spec_Packed Spec_Tiff P_Base P_Threads P_Packed4 P_Packed5 P_Tiff1 P_Tiff3 P_Tiff4 P_Tiff6 P_Always P_Shape1 P_Shape2.
Import ListNotations.
Local Open Scope Z_scope.
#[global] Hint Resolve crw_pic dcr_pic : shape.
Notation nonneg := (fun v => 0 <= v).

(** ** Tags *)
Definition sane (t : ifd) : Prop := forall d, part_of t d -> Forall (fun p => bytes (e_data (snd p))) (i_entries d).
Definition csane (t : cifd) : Prop := forall d, cpart_of t d -> Forall (fun p => bytes (ce_data (snd p))) (ci_entries d).
Lemma sane_part : forall t d, sane t -> part_of t d -> sane d.
Proof. intros t d S P x Hx. apply S. eapply part_trans; eassumption. Qed.
Lemma sane_entry : forall t tag en, sane t -> find_entry t tag = Some en -> bytes (e_data en).
Proof.
  intros t tag en S F. pose proof (find_entry_spec t tag) as K. rewrite F in K. destruct K as (x & d & y & E & I & _).
  assert (P : part_of t d) by (apply directories_part; rewrite E; apply in_or_app; right; left; reflexivity).
  specialize (S d P). rewrite Forall_forall in S. exact (S _ I).
Qed.
Lemma get_u32_nonneg : forall en i, bytes (e_data en) -> always nonneg (get_u32 en i).
Proof.
  intros en i B v E. unfold get_u32, get_force_u32 in E. cbv zeta in E. cbv beta. destruct (e_typ en =? 1).
  - apply get_ok_inv in E. destruct E as [_ E]. apply nth_error_In in E. unfold bytes in B. rewrite Forall_forall in B. specialize (B v E). red in B. lia.
  - destruct (_ || _); [apply ru16_range in E; [lia|exact B]|]. destruct (_ || _ || _ || _); [apply ru32_range in E; [lia|exact B]|discriminate].
Qed.
Lemma fetch_tag_bytes : forall t tag, sane t -> always (fun en => bytes (e_data en)) (fetch_tag t tag).
Proof. intros t tag S v E. unfold fetch_tag in E. destruct (find_entry t tag) eqn:F; [|discriminate]. injection E as ->. eapply sane_entry; eassumption. Qed.
Lemma tag_nonneg : forall t tag, sane t -> always nonneg (tag_usize t tag).
Proof. intros t tag S. unfold tag_usize. eapply always_bindP; [apply fetch_tag_bytes; exact S|]. intros en B. apply get_u32_nonneg. exact B. Qed.
Lemma first_ifd_sane : forall t tag d, sane t -> find_first_ifd t tag = Some d -> sane d.
Proof.
  intros t tag d S F. rewrite find_first_ifd_eq in F. apply List.find_some in F. destruct F as [F _]. eapply sane_part; [exact S|]. apply directories_part. exact F.
Qed.
Lemma fetch_ifd_sane : forall t tag, sane t -> always sane (fetch_ifd t tag).
Proof. intros t tag S d E. unfold fetch_ifd in E. destruct (find_first_ifd t tag) eqn:F; [|discriminate]. injection E as ->. eapply first_ifd_sane; eassumption. Qed.
Lemma ifds_sane : forall t tag, sane t -> Forall sane (find_ifds_with_tag t tag).
Proof. intros t tag S. apply Forall_forall. intros d I. apply find_ifds_In in I. eapply sane_part; [exact S|apply I]. Qed.
Lemma file_sane : forall (M : Mode) b t, bytes b -> ifd_new_file b = Ok t -> sane t.
Proof.
  intros M b t B H. apply ifd_new_file_inv in H; [|exact B]. destruct H as [_ H]. intros d P. destruct (H d P) as [F _].
  eapply Forall_impl; [|exact F]. intros [k en] (_ & _ & _ & _ & _ & x & y & E). cbn [snd]. subst b. unfold bytes in *. rewrite !Forall_app in B. tauto.
Qed.
Lemma cfile_sane : forall (M : Mode) b s t, bytes b -> cifd_new_file b s = Ok t -> csane t.
Proof.
  intros M b s t B H. apply cifd_new_file_inv in H; [|exact B]. destruct H as [_ H]. intros d P. destruct (H d P) as [F _].
  eapply Forall_impl; [|exact F]. intros [k en] (_ & _ & x & y & E). cbn [snd]. subst b. unfold bytes in *. rewrite !Forall_app in B. tauto.
Qed.
Lemma cfetch_bytes : forall t tag, csane t -> always (fun en => bytes (ce_data en)) (fetch_cifd_tag t tag).
Proof.
  intros t tag S en E. unfold fetch_cifd_tag in E. destruct (cfind_entry t tag) eqn:F; [|discriminate]. injection E as ->.
  pose proof (cfind_entry_spec t tag) as K. rewrite F in K. destruct K as (x & d & y & E & I & _).
  assert (P : cpart_of t d) by (apply cdirectories_part; rewrite E; apply in_or_app; right; left; reflexivity).
  specialize (S d P). rewrite Forall_forall in S. exact (S _ I).
Qed.
Lemma LEu16_nonneg : forall b o, bytes b -> always nonneg (LEu16 b o).
Proof. intros b o B v E. apply (ru16_range false) in E; [cbv beta; lia|exact B]. Qed.
Lemma BEu16_nonneg : forall b o, bytes b -> always nonneg (BEu16 b o).
Proof. intros b o B v E. apply (ru16_range true) in E; [cbv beta; lia|exact B]. Qed.
Lemma LEu32_nonneg : forall b o, bytes b -> always nonneg (LEu32 b o).
Proof. intros b o B v E. apply (ru32_range false) in E; [cbv beta; lia|exact B]. Qed.
Lemma cget_nonneg : forall en i, bytes (ce_data en) -> always nonneg (cget_u32 en i).
Proof.
  intros en i B. unfold cget_u32. cbv zeta. sh1.
  - intros v E. apply get_ok_inv in E. destruct E as [_ E]. apply nth_error_In in E. unfold bytes in B. rewrite Forall_forall in B. specialize (B v E). red in B. cbv beta. lia.
  - sh1; [apply LEu16_nonneg; exact B|]. sh1; [apply LEu32_nonneg; exact B|apply always_Panic].
Qed.
Lemma slice_bytes : forall b o, bytes b -> always bytes (slice_from b o).
Proof. intros b o B v E. apply slice_from_inv in E. destruct E as [_ ->]. apply Forall_skipn. exact B. Qed.
#[global] Hint Resolve get_u32_nonneg fetch_tag_bytes tag_nonneg fetch_ifd_sane cfetch_bytes cget_nonneg slice_bytes LEu32_nonneg BEu16_nonneg first_ifd_sane sane_entry : shape.

(** ** Packed samples *)
Lemma packed_pic : forall n dec, (n <= 16)%nat -> shape_ok n dec -> forall buf w h, bytes buf -> 0 <= w -> 0 <= h -> always (pic (w * h)) (dec buf w h).
Proof.
  intros n dec N S buf w h B W H img E. destruct (S buf w h img B W H E) as [L F]. split; [exact L|]. eapply Forall_impl; [|exact F].
  intros v [V1 V2]. split; [exact V1|]. eapply Z.lt_le_trans; [exact V2|]. change 65536 with (2 ^ 16). apply Z.pow_le_mono_r; lia.
Qed.
Lemma table_pic : forall {M : Mode} tbl buf w h, 0 <= w -> 0 <= h -> always (pic (w * h)) (decode_8bit_wtable buf tbl w h).
Proof. intros M tbl buf w h W H img E. exact (decode_8bit_shape tbl buf w h img W H E). Qed.
Lemma p_10le_lsb16 : forall buf w h, bytes buf -> 0 <= w -> 0 <= h -> always (pic (w * h)) (decode_10le_lsb16 buf w h).
Proof. apply (packed_pic 10); [lia|]. exact (proj1 packed_shapes). Qed.
Lemma p_10le : forall buf w h, bytes buf -> 0 <= w -> 0 <= h -> always (pic (w * h)) (decode_10le buf w h).
Proof. apply (packed_pic 10); [lia|]. exact (proj1 (proj2 packed_shapes)). Qed.
Lemma p_12be : forall buf w h, bytes buf -> 0 <= w -> 0 <= h -> always (pic (w * h)) (decode_12be buf w h).
Proof. apply (packed_pic 12); [lia|]. exact (proj1 (proj2 (proj2 packed_shapes))). Qed.
Lemma p_12le : forall buf w h, bytes buf -> 0 <= w -> 0 <= h -> always (pic (w * h)) (decode_12le buf w h).
Proof. apply (packed_pic 12); [lia|]. exact (proj1 (proj2 (proj2 (proj2 packed_shapes)))). Qed.
Lemma p_12be_msb16 : forall buf w h, bytes buf -> 0 <= w -> 0 <= h -> always (pic (w * h)) (decode_12be_msb16 buf w h).
Proof. apply (packed_pic 12); [lia|]. exact (proj1 (proj2 (proj2 (proj2 (proj2 packed_shapes))))). Qed.
Lemma p_12be_msb32 : forall buf w h, bytes buf -> 0 <= w -> 0 <= h -> always (pic (w * h)) (decode_12be_msb32 buf w h).
Proof. apply (packed_pic 12); [lia|]. exact (proj1 (proj2 (proj2 (proj2 (proj2 (proj2 packed_shapes)))))). Qed.
Lemma p_12le_16bitaligned : forall buf w h, bytes buf -> 0 <= w -> 0 <= h -> always (pic (w * h)) (decode_12le_16bitaligned buf w h).
Proof. apply (packed_pic 12); [lia|]. exact (proj1 (proj2 (proj2 (proj2 (proj2 (proj2 (proj2 packed_shapes))))))). Qed.
Lemma p_12le_wcontrol : forall buf w h, bytes buf -> 0 <= w -> 0 <= h -> always (pic (w * h)) (decode_12le_wcontrol buf w h).
Proof. apply (packed_pic 12); [lia|]. exact (proj1 (proj2 (proj2 (proj2 (proj2 (proj2 (proj2 (proj2 packed_shapes)))))))). Qed.
Lemma p_12be_wcontrol : forall buf w h, bytes buf -> 0 <= w -> 0 <= h -> always (pic (w * h)) (decode_12be_wcontrol buf w h).
Proof. apply (packed_pic 12); [lia|]. exact (proj1 (proj2 (proj2 (proj2 (proj2 (proj2 (proj2 (proj2 (proj2 packed_shapes))))))))). Qed.
Lemma p_12be_interlaced : forall buf w h, bytes buf -> 0 <= w -> 0 <= h -> always (pic (w * h)) (decode_12be_interlaced buf w h).
Proof. apply (packed_pic 12); [lia|]. exact (proj1 (proj2 (proj2 (proj2 (proj2 (proj2 (proj2 (proj2 (proj2 (proj2 packed_shapes)))))))))). Qed.
Lemma p_12be_interlaced_unaligned : forall buf w h, bytes buf -> 0 <= w -> 0 <= h -> always (pic (w * h)) (decode_12be_interlaced_unaligned buf w h).
Proof. apply (packed_pic 12); [lia|]. exact (proj1 (proj2 (proj2 (proj2 (proj2 (proj2 (proj2 (proj2 (proj2 (proj2 (proj2 packed_shapes))))))))))). Qed.
Lemma p_12le_unpacked : forall buf w h, bytes buf -> 0 <= w -> 0 <= h -> always (pic (w * h)) (decode_12le_unpacked buf w h).
Proof. apply (packed_pic 12); [lia|]. exact (proj1 (proj2 (proj2 (proj2 (proj2 (proj2 (proj2 (proj2 (proj2 (proj2 (proj2 (proj2 packed_shapes)))))))))))). Qed.
Lemma p_12be_unpacked : forall buf w h, bytes buf -> 0 <= w -> 0 <= h -> always (pic (w * h)) (decode_12be_unpacked buf w h).
Proof. apply (packed_pic 12); [lia|]. exact (proj1 (proj2 (proj2 (proj2 (proj2 (proj2 (proj2 (proj2 (proj2 (proj2 (proj2 (proj2 (proj2 packed_shapes))))))))))))). Qed.
Lemma p_12be_unpacked_left_aligned : forall buf w h, bytes buf -> 0 <= w -> 0 <= h -> always (pic (w * h)) (decode_12be_unpacked_left_aligned buf w h).
Proof. apply (packed_pic 12); [lia|]. exact (proj1 (proj2 (proj2 (proj2 (proj2 (proj2 (proj2 (proj2 (proj2 (proj2 (proj2 (proj2 (proj2 (proj2 packed_shapes)))))))))))))). Qed.
Lemma p_12le_unpacked_left_aligned : forall buf w h, bytes buf -> 0 <= w -> 0 <= h -> always (pic (w * h)) (decode_12le_unpacked_left_aligned buf w h).
Proof. apply (packed_pic 12); [lia|]. exact (proj1 (proj2 (proj2 (proj2 (proj2 (proj2 (proj2 (proj2 (proj2 (proj2 (proj2 (proj2 (proj2 (proj2 (proj2 packed_shapes))))))))))))))). Qed.
Lemma p_14le_unpacked : forall buf w h, bytes buf -> 0 <= w -> 0 <= h -> always (pic (w * h)) (decode_14le_unpacked buf w h).
Proof. apply (packed_pic 14); [lia|]. exact (proj1 (proj2 (proj2 (proj2 (proj2 (proj2 (proj2 (proj2 (proj2 (proj2 (proj2 (proj2 (proj2 (proj2 (proj2 (proj2 packed_shapes)))))))))))))))). Qed.
Lemma p_14be_unpacked : forall buf w h, bytes buf -> 0 <= w -> 0 <= h -> always (pic (w * h)) (decode_14be_unpacked buf w h).
Proof. apply (packed_pic 14); [lia|]. exact (proj1 (proj2 (proj2 (proj2 (proj2 (proj2 (proj2 (proj2 (proj2 (proj2 (proj2 (proj2 (proj2 (proj2 (proj2 (proj2 (proj2 packed_shapes))))))))))))))))). Qed.
Lemma p_16le : forall buf w h, bytes buf -> 0 <= w -> 0 <= h -> always (pic (w * h)) (decode_16le buf w h).
Proof. apply (packed_pic 16); [lia|]. exact (proj1 (proj2 (proj2 (proj2 (proj2 (proj2 (proj2 (proj2 (proj2 (proj2 (proj2 (proj2 (proj2 (proj2 (proj2 (proj2 (proj2 (proj2 packed_shapes)))))))))))))))))). Qed.
Lemma p_16be : forall buf w h, bytes buf -> 0 <= w -> 0 <= h -> always (pic (w * h)) (decode_16be buf w h).
Proof. apply (packed_pic 16); [lia|]. exact (proj1 (proj2 (proj2 (proj2 (proj2 (proj2 (proj2 (proj2 (proj2 (proj2 (proj2 (proj2 (proj2 (proj2 (proj2 (proj2 (proj2 (proj2 (proj2 packed_shapes))))))))))))))))))). Qed.
Lemma p_16le_skiplines : forall buf w h, bytes buf -> 0 <= w -> 0 <= h -> always (pic (w * h)) (decode_16le_skiplines buf w h).
Proof. apply (packed_pic 16); [lia|]. exact (proj2 (proj2 (proj2 (proj2 (proj2 (proj2 (proj2 (proj2 (proj2 (proj2 (proj2 (proj2 (proj2 (proj2 (proj2 (proj2 (proj2 (proj2 (proj2 packed_shapes))))))))))))))))))). Qed.
#[global] Hint Resolve table_pic p_10le_lsb16 p_10le p_12be p_12le p_12be_msb16 p_12be_msb32 p_12le_16bitaligned p_12le_wcontrol p_12be_wcontrol p_12be_interlaced p_12be_interlaced_unaligned p_12le_unpacked p_12be_unpacked p_12be_unpacked_left_aligned p_12le_unpacked_left_aligned p_14le_unpacked p_14be_unpacked p_16le p_16be p_16le_skiplines : shape.

(** ** Images *)
Definition shaped (img : rawimage f32) : Prop :=
  0 <= i_width img /\ 0 <= i_height img /\ 0 <= i_cpp img /\ pic (i_width img * i_height img * i_cpp img) (i_data img).
Section Formats.
Context {M : Mode}.
Lemma ok_shaped : forall cam w h wb image, 0 <= w -> 0 <= h -> pic (w * h) image -> always shaped (ok_image cam w h wb image).
Proof.
  intros cam w h wb image W H P img E. unfold ok_image in E. apply bind_inv in E. destruct E as [b [_ E]]. injection E as <-.
  split; [exact W|]. split; [exact H|]. split; [cbn; lia|]. cbn. rewrite Z.mul_1_r. exact P.
Qed.
Lemma blacks_shaped : forall cam w h wb b image, 0 <= w -> 0 <= h -> pic (w * h) image -> always shaped (ok_image_with_blacklevels cam w h wb b image).
Proof. intros. unfold ok_image_with_blacklevels. apply (always_bindP shaped); [apply ok_shaped; assumption|]. intros i S. apply always_Ok. exact S. Qed.
Hint Resolve ok_shaped blacks_shaped : shape.
Ltac the w h := apply (always_bindP (pic (w * h))); [sh|intros ? ?].
Lemma ari_shaped : forall l buf, bytes buf -> always shaped (ari_image l buf).
Proof. intros. unfold ari_image. sh. Qed.
Lemma wide_sane : forall ds, Forall sane ds -> always sane (find_wide ds).
Proof. intros ds F. induction F; cbn [find_wide]; [sh|]. do 2 sh1. sh1; [apply always_Ok; assumption|assumption]. Qed.
Hint Resolve wide_sane ifds_sane : shape.
Lemma dcs_shaped : forall l buf t, bytes buf -> sane t -> always shaped (dcs_image l buf t).
Proof. intros. unfold dcs_image. sh. Qed.
Lemma erf_shaped : forall l buf t, bytes buf -> sane t -> always shaped (erf_image l buf t).
Proof. intros. unfold erf_image. sh. Qed.
Lemma mef_shaped : forall l buf t, bytes buf -> sane t -> always shaped (mef_image l buf t).
Proof. intros. unfold mef_image. sh. Qed.
Lemma tfr_shaped : forall l buf t, bytes buf -> sane t -> always shaped (tfr_image l buf t).
Proof.
  intros. unfold tfr_image. do 7 sh1. match goal with |- always _ (bind (ljpeg_decode _ (zeros (?w * ?h)) _ _ _ _) _) => apply (always_bindP (pic (w * h))); [apply ljpeg_pic; [assumption|apply pic_zeros; nia]|intros ? ?] end. sh.
Qed.
Lemma kdc_shaped : forall l buf t, bytes buf -> sane t -> always shaped (kdc_image l buf t).
Proof.
  intros l buf t B S. unfold kdc_image. sh1. apply (always_bindP nonneg); [apply tag_nonneg; exact S|]. intros w W. cbv zeta. apply (always_bindP nonneg); [apply tag_nonneg; exact S|]. intros h Hh.
  assert (0 <= w + 80) by lia. assert (0 <= h + 70) by lia. generalize dependent (w + 80). generalize dependent (h + 70). intros. sh.
Qed.
Lemma nrw_shaped : forall l buf t, bytes buf -> sane t -> always shaped (nrw_image l buf t).
Proof. intros. unfold nrw_image. do 6 sh1. match goal with |- context [decode_12be _ ?w ?h] => the w h end. sh. Qed.
Lemma dcr_shaped : forall l buf t, bytes buf -> sane t -> always shaped (dcr_image l buf t).
Proof. intros. unfold dcr_image. sh. Qed.
Lemma nkd_shaped : forall buf cam, bytes buf -> 0 <= c_raw_width cam -> 0 <= c_raw_height cam -> always shaped (nkd_image buf cam).
Proof. intros. unfold nkd_image. cbv zeta. sh1. sh1; [sh|]. the (c_raw_width cam) (c_raw_height cam). sh. Qed.
Lemma mrw_shaped : forall l buf m o t, bytes buf -> 0 <= m_width m -> 0 <= m_height m -> always shaped (mrw_image l buf (m, o, t)).
Proof. intros. unfold mrw_image. cbv beta iota. do 2 sh1. the (m_width m) (m_height m). cbv zeta. sh. Qed.
Lemma x3f_shaped : forall l buf i, always shaped (x3f_image l buf i).
Proof. intros. unfold x3f_image. sh. Qed.
Lemma crw_shaped : forall l buf c, bytes buf -> csane c -> always shaped (crw_image l buf c).
Proof.
  intros l buf c B S. unfold crw_image. sh1. destruct (cget_strings _) as [|x [|y r]]; [sh|sh|]. sh1.
  apply (always_bindP (fun '(w, h, image) => 0 <= w /\ 0 <= h /\ pic (w * h) image)).
  - sh1.
    + sh1. eapply always_bindP; [apply p_10le_lsb16; [assumption|lia|lia]|]. intros image P. apply always_Ok. split; [lia|]. split; [lia|exact P].
    + sh1. apply (always_bindP nonneg); [apply cget_nonneg; assumption|]. intros w W. apply (always_bindP nonneg); [apply cget_nonneg; assumption|]. intros h Hh.
      eapply always_bindP; [apply crw_pic; assumption|]. intros image P. apply always_Ok. split; [exact W|]. split; [exact Hh|exact P].
  - intros [[w h] image] (W & Hh & P). sh.
Qed.
Lemma iiq_shaped : forall l buf t, always shaped (iiq_image l buf t).
Proof.
  intros. unfold iiq_image. do 2 sh1. sh1; [sh|].
  match goal with |- context [iiq_decompress _ _ _ ?w ?h] => assert (0 <= w) by lia; assert (0 <= h) by lia end. sh.
Qed.
Lemma pef_shaped : forall l buf t, bytes buf -> sane t -> always shaped (pef_image l buf t).
Proof.
  intros. unfold pef_image. do 7 sh1. match goal with |- context [decode_12be _ ?w ?h] => apply (always_bindP (pic (w * h))); [|intros ? ?] end.
  - unfold pef_decompress. sh.
  - sh.
Qed.
Lemma orf_shaped : forall l buf t, bytes buf -> sane t -> always shaped (orf_image l buf t).
Proof.
  intros. unfold orf_image. do 6 sh1. skip. sh1. match goal with |- context [orf_decompress _ ?w ?h] => the w h end. sh.
Qed.
Lemma rw2_shaped : forall l buf t, bytes buf -> sane t -> always shaped (rw2_image l buf t).
Proof.
  intros l buf t B S. unfold rw2_image. apply (always_bindP (fun '(w, h, image) => 0 <= w /\ 0 <= h /\ pic (w * h) image)).
  - destruct (find_first_ifd t T_PanaOffsets) as [raw|] eqn:E.
    + assert (sane raw) by (eapply first_ifd_sane; eassumption). do 5 sh1. apply always_Ok. auto.
    + do 5 sh1. match goal with |- context [pana_decompress _ ?w ?h] => the w h end. apply always_Ok. auto.
  - intros [[w h] image] (W & Hh & P). sh.
Qed.
Lemma decrypt_bytes : forall buf o n k, always bytes (sony_decrypt buf o n k).
Proof.
  intros. unfold sony_decrypt. sh1. fold_with (fun s : list Z * list Z => bytes (snd s)); [|constructor|apply always_Ok; assumption].
  unfold decrypt_word. do 5 skip. cbv zeta. apply always_Ok. cbn [snd] in *. apply Forall_app. split; [assumption|].
  assert (G : forall v, byte (Z.land v 255)) by (intros v; change 255 with (Z.ones 8); rewrite Z.land_ones by lia; unfold byte; apply Z.mod_pos_bound; lia).
  constructor; [apply G|constructor; [apply G|constructor; [apply G|constructor; [apply G|constructor]]]].
Qed.
Hint Resolve decrypt_bytes : shape.
Lemma arw_shaped : forall l buf t, bytes buf -> sane t -> always shaped (arw_image l buf t).
Proof.
  intros l buf t B S. unfold arw_image. sh1. destruct (find_first_ifd t T_StripOffsets) as [raw|] eqn:E.
  - assert (sane raw) by (eapply first_ifd_sane; eassumption). do 7 sh1.
    match goal with |- context [decode_arw2 _ ?w ?h] => apply (always_bindP (fun '(h', image) => 0 <= h' /\ pic (w * h') image)); [|intros [h' image] [? ?]; sh]; assert (0 <= h + 8) by lia end.
    destruct (_ =? 1).
    { match goal with |- context [decode_16le _ ?w ?h] => the w h end. apply always_Ok. auto. }
    destruct (_ =? 32767); [|sh]. sh1.
    { match goal with |- context [decode_arw1 _ ?w ?h] => the w h end. apply always_Ok. auto. }
    sh1.
    { sh1. match goal with |- context [decode_arw2 _ ?w ?h] => the w h end. apply always_Ok. auto. }
    sh1; [|sh]. match goal with |- context [decode_12le _ ?w ?h] => the w h end. apply always_Ok. auto.
  - sh1.
    + unfold a100_image. assert (0 <= 3881) by lia. assert (0 <= 2608) by lia. sh.
    + unfold srf_image. destruct (find_first_ifd t T_ImageWidth) as [raw|] eqn:E'; [|sh]. assert (sane raw) by (eapply first_ifd_sane; eassumption). sh.
Qed.
Lemma srw_shaped : forall l buf t, bytes buf -> sane t -> always shaped (srw_image l buf t).
Proof.
  intros l buf t B S. unfold srw_image. do 8 sh1. match goal with |- context [decode_srw2 _ ?w ?h] => the w h end. sh.
Qed.
Lemma nef_shaped : forall powf l buf t, bytes buf -> sane t -> always shaped (nef_image powf l buf t).
Proof.
  intros powf l buf t B S. unfold nef_image. do 9 sh1.
  match goal with |- context [nef_decompress _ _ ?w ?h] => apply (always_bindP (fun '(w', cpp, image) => 0 <= w' /\ (cpp = 1 \/ cpp = 3) /\ pic (w' * h * cpp) image)) end.
  - sh1.
    + eapply always_bindP; [apply p_12be_wcontrol; [assumption|lia|assumption]|]. intros image P. apply always_Ok. rewrite Z.mul_1_r. split; [lia|auto].
    + sh1. sh1; [|sh1; sh1; [|sh1; [|sh]]].
      * match goal with |- context [decode_12le _ ?w ?h] => the w h end. apply always_Ok. rewrite Z.mul_1_r. auto.
      * eapply always_bindP; [apply snef_pic; assumption|]. intros image P. apply always_Ok. split; [assumption|]. split; [auto|].
        match goal with P : pic (?w * 3 * ?h) _ |- _ => replace (w * h * 3) with (w * 3 * h) by lia end. exact P.
      * match goal with |- context [nef_decompress _ _ ?w ?h] => apply (always_bindP (pic (w * h))); [unfold nef_decompress; sh|intros ? ?] end. apply always_Ok. rewrite Z.mul_1_r. auto.
  - intros [[w' cpp] image] (W & C & P). sh1. apply always_bind. intros img E. unfold ok_image in E. apply bind_inv in E. destruct E as [bl [_ E]]. injection E as <-. apply always_Ok.
    destruct C as [-> | ->]; (split; [assumption|split; [assumption|split; [cbn; lia|exact P]]]).
Qed.
Lemma raf_shaped : forall l buf t, bytes buf -> sane t -> always shaped (raf_image l buf t).
Proof.
  intros l buf t B S. unfold raf_image. do 2 sh1. apply (always_bindP (fun '(w, h) => 0 <= w /\ 0 <= h)).
  - unfold raf_dims. sh; auto.
  - intros [w h] [W Hh]. do 4 sh1. apply (always_bindP (pic (w * h))).
    + unfold raf_pixels. sh.
    + intros image P. sh1; [|sh]. cbv zeta. eapply always_bindP; [eapply rotated_pic; exact P|]. intros [[w' h'] o] (W' & H' & P'). sh1. apply always_Ok. split; [exact W'|]. split; [exact H'|]. split; [cbn; lia|].
      cbn. rewrite Z.mul_1_r. exact P'.
Qed.
Lemma mos_shaped : forall parse l buf t, bytes buf -> sane t -> always shaped (mos_image parse l buf t).
Proof.
  intros parse l buf t B S. unfold mos_image. do 10 sh1. match goal with |- context [mos_decompress _ _ ?w ?h] => apply (always_bindP (pic (w * h))); [|intros ? ?] end.
  - sh1; [sh|]. sh1; [|sh]. unfold mos_decompress. sh1. eapply always_bindP; [apply leaf_pic; assumption|]. intros o P. sh1; [eapply interlace_pic; eassumption|sh].
  - sh.
Qed.
Lemma dng_full_sane : forall ds, Forall sane ds -> always (Forall sane) (dng_full ds).
Proof.
  intros ds F. induction F as [|d ds S F IH]; cbn [dng_full]; [apply always_Ok; constructor|]. do 3 skip. apply (always_bindP (Forall sane)); [exact IH|]. intros r R. apply always_Ok.
  destruct (_ && _); [constructor; assumption|exact R].
Qed.
Lemma dng_shaped : forall l buf t, bytes buf -> sane t -> always shaped (dng_image l buf t).
Proof.
  intros l buf t B S. unfold dng_image. apply (always_bindP (Forall sane)); [apply dng_full_sane, ifds_sane; exact S|]. intros ds F.
  apply (always_bindP sane); [apply get_all; exact F|]. intros raw R.
  apply (always_bindP nonneg); [apply tag_nonneg; exact R|]. intros w W. apply (always_bindP nonneg); [apply tag_nonneg; exact R|]. intros h Hh.
  apply (always_bindP nonneg); [apply tag_nonneg; exact R|]. intros cpp C. sh1. cbv zeta. sh1. assert (0 <= w * cpp) by nia.
  apply (always_bindP (pic (w * cpp * h))).
  - sh1; [unfold dng_uncompressed; sh|]. sh1; [|sh]. apply dng_compressed_pic; [assumption|assumption|]. intros tl E. revert E. apply (tag_nonneg raw T_TileLength R).
  - intros image P. repeat skip. apply always_Ok. split; [exact W|]. split; [exact Hh|]. split; [exact C|]. cbn. replace (w * h * cpp) with (w * cpp * h) by lia. exact P.
Qed.
End Formats.
