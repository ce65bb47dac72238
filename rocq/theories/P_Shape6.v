(** C07 for the compressions: what P_Shape1 and P_Shape2 say, in words of the
    specification. *)
From Coq Require Import String ZArith List Bool Lia.
From Verif Require Import Base Num F32 Bytes Pumps Ljpeg Tiff Ciff Camera Arw Decoder Dec_Simple Dec_Crw Dec_Pred Dec_Nef Dec_Ljpeg
  Spec_Bits Spec_Shape P_Always P_Shape1 P_Shape2 P_Shape3.
Import ListNotations.
Local Open Scope Z_scope.

Lemma pic_filled : forall n r, always (pic n) r -> fills r n.
Proof. intros n r H l E. destruct (H l E) as [A B]. split; [exact A|exact B]. Qed.
Lemma compressions_fill : forall (M : Mode) w h, 0 <= w -> 0 <= h ->
  (forall buf, fills (decode_arw1 buf w h) (w * h)) /\
  (forall buf curve, fills (decode_arw2 buf w h curve) (w * h)) /\
  (forall buf a b, fills (iiq_decompress buf a b w h) (w * h)) /\
  (forall t buf, fills (pef_decompress t buf w h) (w * h)) /\
  (forall buf, fills (orf_decompress buf w h) (w * h)) /\
  (forall buf split, fills (pana_decompress buf w h split) (w * h)) /\
  (forall t buf bps, fills (nef_decompress t buf w h bps) (w * h)) /\
  (forall powf t buf, fills (snef_decompress powf t buf w h) (w * h * 3)) /\
  (forall buf lines, fills (decode_srw1 buf lines w h) (w * h)) /\
  (forall buf, fills (decode_srw2 buf w h) (w * h)) /\
  (forall buf, fills (decode_srw3 buf w h) (w * h)) /\
  (forall buf c cam, fills (crw_decompress buf c cam w h) (w * h)) /\
  (forall buf curve, fills (decode_kodak65000 buf curve w h) (w * h)) /\
  (forall lj, fills (decode_leaf lj w h) (w * h)) /\
  (forall cam buf, fills (mos_decompress cam buf w h) (w * h)) /\
  (forall buf t raw, bytes buf -> fills (dng_uncompressed buf t raw w h) (w * h)) /\
  (forall buf raw cpp, (forall en, find_entry raw T_TileLength = Some en -> bytes (e_data en)) ->
     fills (dng_compressed buf raw w h cpp) (w * h)) /\
  (forall lj l x sw, samples l -> fills (ljpeg_decode lj l x sw w h) (Z.of_nat (length l))).
Proof.
  intros M w h Hw Hh.
  split; [intros; apply pic_filled, arw1_pic; assumption|]. split; [intros; apply pic_filled, arw2_pic; assumption|].
  split; [intros; apply pic_filled, iiq_pic; assumption|].
  split; [intros; apply pic_filled; unfold pef_decompress; apply always_bind; intros; apply pef_pic; assumption|].
  split; [intros; apply pic_filled, orf_pic; assumption|]. split; [intros; apply pic_filled, pana_pic; assumption|].
  split; [intros; apply pic_filled; unfold nef_decompress; do 3 (apply always_bind; intros); apply nef_pic; assumption|].
  split; [intros; apply pic_filled; replace (w * h * 3) with (w * 3 * h) by ring; apply snef_pic; assumption|].
  split; [intros; apply pic_filled, srw1_pic; assumption|]. split; [intros; apply pic_filled, srw2_pic; assumption|].
  split; [intros; apply pic_filled, srw3_pic; assumption|]. split; [intros; apply pic_filled, crw_pic; assumption|].
  split; [intros; apply pic_filled, dcr_pic; assumption|]. split; [intros; apply pic_filled, leaf_pic; assumption|].
  split; [intros; apply pic_filled; unfold mos_decompress; sh1; eapply always_bindP; [apply leaf_pic; assumption|]; intros o P; sh1; [eapply interlace_pic; eassumption|sh]|].
  split; [intros; apply pic_filled; unfold dng_uncompressed; sh1; eapply always_bindP; [apply slice_bytes; assumption|]; intros src B; sh1;
    sh1; [apply p_16le; assumption|]; sh1; [apply p_12be; assumption|]; sh1; [apply p_10le; assumption|]; sh1; [|apply always_Err]; do 3 sh1; apply table_pic; assumption|].
  split; [intros buf raw cpp B; apply pic_filled, dng_compressed_pic; [assumption|assumption|]; intros tl; unfold tag_usize, fetch_tag;
    destruct (find_entry raw T_TileLength) as [en|] eqn:E; [|discriminate]; cbn [bind]; apply get_u32_nonneg, B; reflexivity|].
  intros. apply pic_filled, ljpeg_pic; [exact Hw|split; [reflexivity|assumption]].
Qed.
