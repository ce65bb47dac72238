(** Proofs that loops end: the decoders of Nikon, Samsung and lossless JPEG formats. *)
From Coq Require Import String ZArith List Bool Lia ZifyBool ZifyNat.
From Verif Require Import Base Num F32 Bytes Pumps ByteStream Threads Packed Huffman Lookup Ljpeg Mos Raf Cr2 Arw Tiff Ciff Camera Cfa Image Decoder Dec_Simple Dec_Header Dec_Crw Dec_Pred Dec_Nef Dec_Ljpeg Spec_Bits P_Base P_Bits P_Pumps P_Tiff2 P_Tiff3 P_Ends1 P_Ends2 P_Ends3 P_Ends4.
Import ListNotations.
Local Open Scope Z_scope.
Ltac Zify.zify_post_hook ::= Z.div_mod_to_equations.
Section Ends6.
Context {M : Mode}.
Context (powf : f32 -> f32 -> f32) (parse_f32 : string -> option f32).
Lemma unwrap_ljpeg_ok : forall src lj, unwrap (ljpeg_new src) = Ok lj -> lj_ok lj.
Proof. intros src lj H. unfold unwrap in H. destruct (ljpeg_new src) eqn:E; try discriminate. apply Ok_inj' in H. subst. eapply ljpeg_new_ok. exact E. Qed.
#[local] Hint Resolve unwrap_ljpeg_ok : ends.
Lemma ends_snef_point : forall (i : Z), ends (snef_point powf i). Proof. intros; unfold snef_point; et. Qed.
#[local] Hint Resolve ends_snef_point : ends.
Lemma ends_snef_curve : ends (snef_curve powf ). Proof. intros; unfold snef_curve; et. Qed.
#[local] Hint Resolve ends_snef_curve : ends.
Lemma ends_nef_version : forall (data : list Z), ends (nef_version data). Proof. intros; unfold nef_version; et. Qed.
#[local] Hint Resolve ends_nef_version : ends.
Lemma ends_nef_serial : forall (data : list Z) (idx : list Z) (serialno : Z), ends (nef_serial data idx serialno). Proof. intros data idx; induction idx as [|i t IH]; intros; cbn [nef_serial]; et. Qed.
#[local] Hint Resolve ends_nef_serial : ends.
Lemma ends_nef_decipher : forall (src : list Z) (ci cj : Z), ends (nef_decipher src ci cj). Proof. intros; unfold nef_decipher; et. Qed.
#[local] Hint Resolve ends_nef_decipher : ends.
Lemma ends_nef_wb_cipher : forall (tiff : ifd) (levels : entry) (version : Z), ends (nef_wb_cipher tiff levels version). Proof. intros; unfold nef_wb_cipher; et. Qed.
#[local] Hint Resolve ends_nef_wb_cipher : ends.
Lemma ends_force_wb : forall (en : entry) (i j k : Z), ends (force_wb en i j k). Proof. intros; unfold force_wb; et. Qed.
#[local] Hint Resolve ends_force_wb : ends.
Lemma ends_nef_wb : forall (tiff : ifd), ends (nef_wb tiff). Proof. intros; unfold nef_wb; et. Qed.
#[local] Hint Resolve ends_nef_wb : ends.
Lemma ends_nef_hufftable : forall (num bps : Z), ends (nef_hufftable num bps). Proof. intros; unfold nef_hufftable; et. Qed.
#[local] Hint Resolve ends_nef_hufftable : ends.
Lemma ends_nef_points_split : forall (csize step max : Z) (s : bstream), ends (nef_points_split csize step max s). Proof. intros; unfold nef_points_split; et. Qed.
#[local] Hint Resolve ends_nef_points_split : ends.
Lemma ends_nef_points_plain : forall (csize : Z) (s : bstream), ends (nef_points_plain csize s). Proof. intros; unfold nef_points_plain; et. Qed.
#[local] Hint Resolve ends_nef_points_plain : ends.
Lemma ends_nef_meta_new : forall (data : list Z) (e : endian) (bps : Z), ends (nef_meta_new data e bps). Proof. intros; unfold nef_meta_new; et. Qed.
#[local] Hint Resolve ends_nef_meta_new : ends.
Lemma ends_nef_put : forall (curve : ltable) (out : list Z) (at_ a b random : Z), ends (nef_put curve out at_ a b random). Proof. intros; unfold nef_put; et. Qed.
#[local] Hint Resolve ends_nef_put : ends.
Lemma nef_hufftable_ok : forall n b t, nef_hufftable n b = Ok t -> tab_ok t.
Proof. intros n b t H. unfold nef_hufftable in H. ib H. eapply tree_table_ok. exact H. Qed.
Lemma ends_nef_rows : forall m src w h bps, ends (nef_rows m src w h bps).
Proof.
  intros m src w h bps. unfold nef_rows. apply ends_bind_ok; [et|]. intros t T. apply nef_hufftable_ok in T. apply ends_bind; [et|]. intros [random p].
  apply ends_bind; [|intros [[[[[? ?] ?] ?] ?] ?]; et].
  apply (ends_rfold_inv (fun st : hufftable * list Z * list Z * pump * Z * list Z => tab_ok (fst (fst (fst (fst (fst st))))))).
  - exact T.
  - intros row [[[[[t1 up1] up2] p1] r1] o1] T1. cbn [fst] in T1.
    apply ends_bind_ok; [et|]. intros t2 T2. assert (tab_ok t2). { destruct (_ && _); [eapply nef_hufftable_ok; exact T2|apply Ok_inj' in T2; subst; exact T1]. } et.
  - intros row [[[[[t1 up1] up2] p1] r1] o1] s' T1 H. cbn [fst] in T1. ib H. rename x into t2.
    assert (T2 : tab_ok t2). { destruct (_ && _); [eapply nef_hufftable_ok; exact E|apply Ok_inj' in E; subst; exact T1]. } clear E.
    ib H. ib H. ib H. destruct x1 as [[? ?] ?]. ib H. ib H. ib H. destruct x3 as [[[[? ?] ?] ?] ?]. apply Ok_inj' in H. subst s'. cbn [fst]. exact T2.
Qed.
#[local] Hint Resolve ends_nef_rows : ends.
Lemma ends_nef_decompress : forall (tiff : ifd) (src : list Z) (width height bps : Z), ends (nef_decompress tiff src width height bps). Proof. intros; unfold nef_decompress; et. Qed.
#[local] Hint Resolve ends_nef_decompress : ends.
Lemma ends_snef_pixel : forall (curve : ltable) (inv_r inv_b : Z) (y cb cr : f32) (random : Z), ends (snef_pixel curve inv_r inv_b y cb cr random). Proof. intros; unfold snef_pixel; et. Qed.
#[local] Hint Resolve ends_snef_pixel : ends.
Lemma ends_snef_group : forall (curve : ltable) (inv_r inv_b : Z) (oi : list Z * list Z) (st : Z * list Z), ends (snef_group curve inv_r inv_b oi st). Proof. intros; destruct st as [? ?]; unfold snef_group; et. Qed.
#[local] Hint Resolve ends_snef_group : ends.
Lemma ends_snef_decompress : forall (tiff : ifd) (src : list Z) (width height : Z), ends (snef_decompress powf tiff src width height). Proof. intros; unfold snef_decompress; et. Qed.
#[local] Hint Resolve ends_snef_decompress : ends.
Lemma ends_nef_image : forall (l : loader) (buf : list Z) (tiff : ifd), ends (nef_image powf l buf tiff). Proof. intros; unfold nef_image; et. Qed.
#[local] Hint Resolve ends_nef_image : ends.
Lemma ends_srw1_len : forall (op len : Z) (p : pump), ends (srw1_len op len p). Proof. intros; unfold srw1_len; et. Qed.
#[local] Hint Resolve ends_srw1_len : ends.
Lemma ends_srw1_pixel : forall (width img col c : Z) (dir : bool) (l up lft : Z) (st : pump * list Z), ends (srw1_pixel width img col c dir l up lft st). Proof. intros; destruct st as [? ?]; unfold srw1_pixel; et. Qed.
#[local] Hint Resolve ends_srw1_pixel : ends.
Lemma ends_srw1_group : forall (width row col : Z) (st : pump * list Z * list Z), ends (srw1_group width row col st). Proof. intros; destruct st as [[? ?] ?]; unfold srw1_group; et. Qed.
#[local] Hint Resolve ends_srw1_group : ends.
Lemma ends_swap : forall (out : list Z) (i j : Z), ends (swap out i j). Proof. intros; unfold swap; et. Qed.
#[local] Hint Resolve ends_swap : ends.
Lemma ends_decode_srw1 : forall (buf loffsets : list Z) (width height : Z), ends (decode_srw1 buf loffsets width height). Proof. intros; unfold decode_srw1; et. Qed.
#[local] Hint Resolve ends_decode_srw1 : ends.
Lemma ends_srw2_diff : forall (p : pump), ends (srw2_diff p). Proof. intros; unfold srw2_diff; et. Qed.
#[local] Hint Resolve ends_srw2_diff : ends.
Lemma ends_srw2_pixel : forall (width row col : Z) (st : list Z * list Z * pump * list Z), ends (srw2_pixel width row col st). Proof. intros; destruct st as [[[? ?] ?] ?]; unfold srw2_pixel; et. Qed.
#[local] Hint Resolve ends_srw2_pixel : ends.
Lemma ends_decode_srw2 : forall (buf : list Z) (width height : Z), ends (decode_srw2 buf width height). Proof. intros; unfold decode_srw2; et. Qed.
#[local] Hint Resolve ends_decode_srw2 : ends.
Lemma ends_srw3_header : forall (p : pump), ends (srw3_header p). Proof. intros; unfold srw3_header; et. Qed.
#[local] Hint Resolve ends_srw3_header : ends.
Lemma ends_srw3_scale : forall (optflags col scale : Z) (p : pump), ends (srw3_scale optflags col scale p). Proof. intros; unfold srw3_scale; et. Qed.
#[local] Hint Resolve ends_srw3_scale : ends.
Lemma ends_srw3_motion : forall (optflags row motion : Z) (p : pump), ends (srw3_motion optflags row motion p). Proof. intros; unfold srw3_motion; et. Qed.
#[local] Hint Resolve ends_srw3_motion : ends.
Lemma ends_srw3_reference : forall (width row col motion init_val : Z) (out : list Z), ends (srw3_reference width row col motion init_val out). Proof. intros; unfold srw3_reference; et. Qed.
#[local] Hint Resolve ends_srw3_reference : ends.
Lemma ends_srw3_bits : forall (row bit_depth : Z) (iflag : Z * Z) (st : pump * list (Z * Z) * list Z), ends (srw3_bits row bit_depth iflag st). Proof. intros; destruct st as [[? ?] ?]; unfold srw3_bits; et. Qed.
#[local] Hint Resolve ends_srw3_bits : ends.
Lemma ends_srw3_diffs : forall (width row col bit_depth scale : Z) (bits : list Z) (st : pump * list Z), ends (srw3_diffs width row col bit_depth scale bits st). Proof. intros; destruct st as [? ?]; unfold srw3_diffs; et. Qed.
#[local] Hint Resolve ends_srw3_diffs : ends.
Lemma ends_srw3_group : forall (width row bit_depth optflags init_val col : Z) (st : pump * Z * Z * list (Z * Z) * list Z), ends (srw3_group width row bit_depth optflags init_val col st). Proof. intros; destruct st as [[[[? ?] ?] ?] ?]; unfold srw3_group; et. Qed.
#[local] Hint Resolve ends_srw3_group : ends.
Lemma ends_decode_srw3 : forall (buf : list Z) (width height : Z), ends (decode_srw3 buf width height). Proof. intros; unfold decode_srw3; et. Qed.
#[local] Hint Resolve ends_decode_srw3 : ends.
Lemma ends_srw_wb : forall (buf : list Z) (tiff : ifd), ends (srw_wb buf tiff). Proof. intros; unfold srw_wb; et. Qed.
#[local] Hint Resolve ends_srw_wb : ends.
Lemma ends_srw_image : forall (l : loader) (buf : list Z) (tiff : ifd), ends (srw_image l buf tiff). Proof. intros; unfold srw_image; et. Qed.
#[local] Hint Resolve ends_srw_image : ends.
Lemma ends_dng_full : forall (l : list ifd), ends (dng_full l). Proof. induction l as [|i t IH]; cbn [dng_full]; et. Qed.
#[local] Hint Resolve ends_dng_full : ends.
Lemma ends_dng_wb : forall (tiff : ifd), ends (dng_wb tiff). Proof. intros; unfold dng_wb; et. Qed.
#[local] Hint Resolve ends_dng_wb : ends.
Lemma ends_dng_blacks : forall (raw : ifd), ends (dng_blacks raw). Proof. intros; unfold dng_blacks; et. Qed.
#[local] Hint Resolve ends_dng_blacks : ends.
Lemma ends_dng_whites : forall (raw : ifd), ends (dng_whites raw). Proof. intros; unfold dng_whites; et. Qed.
#[local] Hint Resolve ends_dng_whites : ends.
Lemma ends_dng_cfa : forall (raw : ifd), ends (dng_cfa raw). Proof. intros; unfold dng_cfa; et. Qed.
#[local] Hint Resolve ends_dng_cfa : ends.
Lemma ends_dng_crops : forall (raw : ifd) (width height : Z), ends (dng_crops raw width height). Proof. intros; unfold dng_crops; et. Qed.
#[local] Hint Resolve ends_dng_crops : ends.
Lemma ends_dng_matrix : forall (tiff : ifd), ends (dng_matrix tiff). Proof. intros; unfold dng_matrix; et. Qed.
#[local] Hint Resolve ends_dng_matrix : ends.
Lemma ends_dng_uncompressed : forall (buf : list Z) (tiff raw : ifd) (width height : Z), ends (dng_uncompressed buf tiff raw width height). Proof. intros; unfold dng_uncompressed; et. Qed.
#[local] Hint Resolve ends_dng_uncompressed : ends.
Lemma ends_dng_tile : forall (buf : list Z) (offsets : entry) (width height twidth tlength coltiles row col : Z) (strip : list Z), ends (dng_tile buf offsets width height twidth tlength coltiles row col strip). Proof. intros; unfold dng_tile; et. Qed.
#[local] Hint Resolve ends_dng_tile : ends.
Lemma ends_dng_compressed : forall (buf : list Z) (raw : ifd) (width height cpp : Z), ends (dng_compressed buf raw width height cpp). Proof. intros; unfold dng_compressed; et. Qed.
#[local] Hint Resolve ends_dng_compressed : ends.
Lemma ends_dng_names : forall (l : loader) (tiff : ifd), ends (dng_names l tiff). Proof. intros; unfold dng_names; pose proof (ends_check_supported l tiff) as K; destruct (check_supported l tiff); [et|et|et|exfalso; apply K; reflexivity]. Qed.
#[local] Hint Resolve ends_dng_names : ends.
Lemma ends_dng_image : forall (l : loader) (buf : list Z) (tiff : ifd), ends (dng_image l buf tiff). Proof. intros; unfold dng_image; et. Qed.
#[local] Hint Resolve ends_dng_image : ends.
Lemma ends_lj_super_v : forall (lj : ljpeg), ends (lj_super_v lj). Proof. intros; unfold lj_super_v; et. Qed.
#[local] Hint Resolve ends_lj_super_v : ends.
Lemma ends_lj_super_h : forall (lj : ljpeg), ends (lj_super_h lj). Proof. intros; unfold lj_super_h; et. Qed.
#[local] Hint Resolve ends_lj_super_h : ends.
Lemma ends_cr2_wb : forall (tiff : ifd) (cam : camera), ends (cr2_wb tiff cam). Proof. intros; unfold cr2_wb; et. Qed.
#[local] Hint Resolve ends_cr2_wb : ends.
Lemma ends_convert_to_rgb : forall (tiff : ifd) (cam : camera) (image : list Z), ends (convert_to_rgb tiff cam image). Proof. intros; unfold convert_to_rgb; et. Qed.
#[local] Hint Resolve ends_convert_to_rgb : ends.
Lemma ends_cr2_raw : forall (tiff : ifd), ends (cr2_raw tiff). Proof. intros; unfold cr2_raw; et. Qed.
#[local] Hint Resolve ends_cr2_raw : ends.
Lemma ends_cr2_linearize : forall (tiff : ifd) (camera : camera) (ljpegout : list Z), ends (cr2_linearize tiff camera ljpegout). Proof. intros; unfold cr2_linearize; et. Qed.
#[local] Hint Resolve ends_cr2_linearize : ends.
Lemma ends_cr2_size : forall (tiff raw : ifd) (camera : camera) (cpp width height : Z) (ljpegout : list Z), ends (cr2_size tiff raw camera cpp width height ljpegout). Proof. intros; unfold cr2_size; et. Qed.
#[local] Hint Resolve ends_cr2_size : ends.
Lemma ends_cr2_stripes : forall (raw : ifd) (lj : ljpeg) (cpp width height : Z) (ljpegout : list Z), ends (cr2_stripes raw lj cpp width height ljpegout). Proof. intros; unfold cr2_stripes; et. Qed.
#[local] Hint Resolve ends_cr2_stripes : ends.
Lemma ends_cr2_image : forall (l : loader) (buf : list Z) (tiff : ifd), ends (cr2_image l buf tiff). Proof. intros; unfold cr2_image; et. Qed.
#[local] Hint Resolve ends_cr2_image : ends.
Lemma ends_raf_wb : forall (tiff : ifd), ends (raf_wb tiff). Proof. intros; unfold raf_wb; et. Qed.
#[local] Hint Resolve ends_raf_wb : ends.
Lemma ends_raf_dims : forall (raw : ifd), ends (raf_dims raw). Proof. intros; unfold raf_dims; et. Qed.
#[local] Hint Resolve ends_raf_dims : ends.
Lemma ends_raf_pixels : forall (camera : camera) (e : endian) (src : list Z) (bps width height : Z), ends (raf_pixels camera e src bps width height). Proof. intros; unfold raf_pixels; et. Qed.
#[local] Hint Resolve ends_raf_pixels : ends.
Lemma ends_raf_image : forall (l : loader) (buf : list Z) (tiff : ifd), ends (raf_image l buf tiff). Proof. intros; unfold raf_image; et. Qed.
#[local] Hint Resolve ends_raf_image : ends.
Lemma ends_mos_wb : forall (tiff : ifd), ends (mos_wb parse_f32 tiff). Proof. intros; unfold mos_wb; et. Qed.
#[local] Hint Resolve ends_mos_wb : ends.
Lemma ends_xmp_tag : forall (tiff : ifd) (tag : string), ends (xmp_tag tiff tag). Proof. intros; unfold xmp_tag; et. Qed.
#[local] Hint Resolve ends_xmp_tag : ends.
Lemma ends_before_paren : forall (s : string), ends (before_paren s). Proof. intros; unfold before_paren; et. Qed.
#[local] Hint Resolve ends_before_paren : ends.
Lemma ends_mos_decompress : forall (cam : camera) (src : list Z) (width height : Z), ends (mos_decompress cam src width height). Proof. intros; unfold mos_decompress; et. Qed.
#[local] Hint Resolve ends_mos_decompress : ends.
Lemma ends_mos_image : forall (l : loader) (buf : list Z) (tiff : ifd), ends (mos_image parse_f32 l buf tiff). Proof. intros; unfold mos_image; et. Qed.
#[local] Hint Resolve ends_mos_image : ends.
End Ends6.
#[global] Hint Resolve unwrap_ljpeg_ok ends_snef_point ends_snef_curve ends_nef_version ends_nef_serial ends_nef_decipher ends_nef_wb_cipher ends_force_wb ends_nef_wb ends_nef_hufftable ends_nef_points_split ends_nef_points_plain ends_nef_meta_new ends_nef_put ends_nef_rows ends_nef_decompress ends_snef_pixel ends_snef_group ends_snef_decompress ends_nef_image ends_srw1_len ends_srw1_pixel ends_srw1_group ends_swap ends_decode_srw1 ends_srw2_diff ends_srw2_pixel ends_decode_srw2 ends_srw3_header ends_srw3_scale ends_srw3_motion ends_srw3_reference ends_srw3_bits ends_srw3_diffs ends_srw3_group ends_decode_srw3 ends_srw_wb ends_srw_image ends_dng_full ends_dng_wb ends_dng_blacks ends_dng_whites ends_dng_cfa ends_dng_crops ends_dng_matrix ends_dng_uncompressed ends_dng_tile ends_dng_compressed ends_dng_names ends_dng_image ends_lj_super_v ends_lj_super_h ends_cr2_wb ends_convert_to_rgb ends_cr2_raw ends_cr2_linearize ends_cr2_size ends_cr2_stripes ends_cr2_image ends_raf_wb ends_raf_dims ends_raf_pixels ends_raf_image ends_mos_wb ends_xmp_tag ends_before_paren ends_mos_decompress ends_mos_image : ends.
