(** Proofs that loops end: directories, cameras and the decoders of formats. *)
From Coq Require Import String ZArith List Bool Lia ZifyBool ZifyNat.
From Verif Require Import Base Num F32 Bytes Pumps ByteStream Threads Packed Huffman Lookup Ljpeg Mos Raf Cr2 Arw Tiff Ciff Camera Cfa Image Decoder Dec_Simple Dec_Header Dec_Crw Dec_Pred Dec_Nef Dec_Ljpeg Spec_Bits P_Base P_Bits P_Pumps P_Huff3 P_Tiff2 P_Ends1 P_Ends2.
Import ListNotations.
Local Open Scope Z_scope.
Ltac Zify.zify_post_hook ::= Z.div_mod_to_equations.
#[global] Hint Resolve ends_at_is ends_get_u32 ends_ifd_new_root ends_ifd_levels ends_ifd_new_file ends_cifd_new_file : ends.
Lemma ends_ifd_new : forall {M : Mode} buf a b c e, ends (ifd_new buf a b c e). Proof. intros; apply ends_ifd_levels. Qed.
#[global] Hint Resolve ends_ifd_new : ends.
Lemma ends_ri32 : forall e b p, ends (ri32 e b p). Proof. intros; unfold ri32, BEi32, LEi32; et. Qed.
#[global] Hint Resolve ends_ri32 : ends.
Lemma ends_rfold_inv : forall {A S} (P : S -> Prop) (f : A -> S -> res S) xs s, P s -> (forall x s, P s -> ends (f x s)) ->
  (forall x s s', P s -> f x s = Ok s' -> P s') -> ends (rfold f xs s).
Proof.
  intros A S P f xs. induction xs as [|x t IH]; intros s H0 He Hs; cbn [rfold]; [discriminate|].
  apply ends_bind_ok; [apply He; exact H0|]. intros s1 E. apply IH; [|exact He|exact Hs]. eapply Hs; eassumption.
Qed.
Lemma bytes_slice_from : forall buf o s, bytes buf -> slice_from buf o = Ok s -> bytes s.
Proof.
  intros buf o s B H. apply slice_from_inv in H. destruct H as [_ ->]. apply Forall_skipn. exact B.
Qed.
#[global] Hint Resolve bytes_slice_from : ends.
(** Readers of words stay well formed *)
Section Words.
Context {M : Mode}.
Lemma wf_new : forall k buf, k <> JPEG -> bytes buf -> wf k (pump_new buf).
Proof. intros k buf K B. constructor; cbn; try lia; try assumption; try reflexivity. intros ->. contradiction. Qed.
Lemma wf_Repr : forall k p, k <> JPEG -> wf k p -> Repr k p (pending k p).
Proof. intros k p K W. constructor; auto. Qed.
Lemma value_of_range : forall k l, 0 <= value_of k l < 2 ^ Z.of_nat (length l).
Proof. intros [] l; cbn [value_of]; first [apply number_lsb_range|apply number_range]. Qed.
Lemma wf_peek : forall k p n v p', k <> JPEG -> wf k p -> 0 <= n <= 32 -> peek_bits k p n = Ok (v, p') ->
  wf k p' /\ 0 <= v < 2 ^ n /\ n <= pnbits p'.
Proof.
  intros k p n v p' K W N E. rewrite <- (Z2Nat.id n) in * by lia. set (m := Z.to_nat n) in *. clearbody m. clear n. assert (m <= 32)%nat by lia.
  assert (L : (m <= length (pending k p))%nat).
  { destruct (Nat.le_gt_cases m (length (pending k p))); [assumption|]. rewrite peek_exhausted in E by assumption. discriminate. }
  destruct (peek_ok k p _ m (wf_Repr k p K W) H L) as [q [E2 [R Q]]]. rewrite E in E2. injection E2 as -> <-. split; [apply R|]. split; [|exact Q].
  pose proof (value_of_range k (firstn m (pending k p))) as V. rewrite firstn_length in V. replace (Nat.min m (length (pending k p))) with m in V by lia. exact V.
Qed.
Lemma wf_consume : forall k p n p', k <> JPEG -> wf k p -> 0 <= n <= pnbits p -> consume_bits k p n = Ok p' -> wf k p'.
Proof.
  intros k p n p' K W N E. rewrite <- (Z2Nat.id n) in * by lia.
  destruct (consume_ok k p _ (Z.to_nat n) (wf_Repr k p K W) ltac:(lia)) as [q [E2 [R _]]]. rewrite E in E2. injection E2 as <-. apply R.
Qed.
Lemma wf_get : forall k p n v p', k <> JPEG -> wf k p -> 0 <= n <= 32 -> get_bits k p n = Ok (v, p') -> wf k p' /\ 0 <= v < 2 ^ n.
Proof.
  intros k p n v p' K W N E. unfold get_bits in E. destruct (n =? 0) eqn:E0.
  - injection E as <- <-. assert (n = 0) by lia. subst n. cbn. split; [exact W|lia].
  - ib E. destruct x as [v1 p1]. ib E. injection E as <- <-. destruct (wf_peek k p n v1 p1 K W N E1) as [W1 [V1 N1]].
    split; [|exact V1]. eapply wf_consume; [exact K|exact W1| |exact E2]. lia.
Qed.
Lemma wf_geti : forall k p n v p', k <> JPEG -> wf k p -> 0 <= n <= 31 -> get_ibits k p n = Ok (v, p') -> wf k p' /\ 0 <= v < 2 ^ n.
Proof.
  intros k p n v p' K W N E. unfold get_ibits in E. ib E. destruct x as [u p1]. injection E as <- <-. destruct (wf_get k p n u p1 K W ltac:(lia) E0) as [W1 V1].
  split; [exact W1|]. assert (2 ^ n <= 2 ^ 31) by (apply Z.pow_le_mono_r; lia). rewrite P_Huff3.as_i32_small by lia. exact V1.
Qed.
Lemma wf_peeki : forall k p n v p', k <> JPEG -> wf k p -> 0 <= n <= 31 -> peek_ibits k p n = Ok (v, p') -> wf k p' /\ 0 <= v < 2 ^ n /\ n <= pnbits p'.
Proof.
  intros k p n v p' K W N E. unfold peek_ibits in E. ib E. destruct x as [u p1]. injection E as <- <-. destruct (wf_peek k p n u p1 K W ltac:(lia) E0) as [W1 [V1 L1]].
  split; [exact W1|]. assert (2 ^ n <= 2 ^ 31) by (apply Z.pow_le_mono_r; lia). rewrite P_Huff3.as_i32_small by lia. split; [exact V1|exact L1].
Qed.
End Words.
Section Ends4.
Context {M : Mode}.
Lemma ends_copy_offset_from_parent : forall (en : entry) (buffer : list Z), ends (copy_offset_from_parent en buffer). Proof. intros; unfold copy_offset_from_parent; et. Qed.
#[local] Hint Resolve ends_copy_offset_from_parent : ends.
Lemma ends_get_force_u32 : forall (en : entry) (idx : Z), ends (get_force_u32 en idx). Proof. intros; unfold get_force_u32; et. Qed.
#[local] Hint Resolve ends_get_force_u32 : ends.
Lemma ends_get_force_u16 : forall (en : entry) (idx : Z), ends (get_force_u16 en idx). Proof. intros; unfold get_force_u16; et. Qed.
#[local] Hint Resolve ends_get_force_u16 : ends.
Lemma ends_get_str : forall (en : entry), ends (get_str en). Proof. intros; unfold get_str; et. Qed.
#[local] Hint Resolve ends_get_str : ends.
Lemma ends_is_ciff : forall (buf : list Z), ends (is_ciff buf). Proof. intros; unfold is_ciff; et. Qed.
#[local] Hint Resolve ends_is_ciff : ends.
Lemma ends_cget_u32 : forall (en : centry) (idx : Z), ends (cget_u32 en idx). Proof. intros; unfold cget_u32; et. Qed.
#[local] Hint Resolve ends_cget_u32 : ends.
Lemma ends_cget_force_u16 : forall (en : centry) (idx : Z), ends (cget_force_u16 en idx). Proof. intros; unfold cget_force_u16; et. Qed.
#[local] Hint Resolve ends_cget_force_u16 : ends.
Lemma ends_pat_get : forall (p : list Z) (row col : Z), ends (pat_get p row col). Proof. intros; unfold pat_get; et. Qed.
#[local] Hint Resolve ends_pat_get : ends.
Lemma ends_pat_set : forall (p : list Z) (row col v : Z), ends (pat_set p row col v). Proof. intros; unfold pat_set; et. Qed.
#[local] Hint Resolve ends_pat_set : ends.
Lemma ends_cfa_dims : forall (len : Z), ends (cfa_dims len). Proof. intros; unfold cfa_dims; et. Qed.
#[local] Hint Resolve ends_cfa_dims : ends.
Lemma ends_cfa_color : forall (c : Z), ends (cfa_color c). Proof. intros; unfold cfa_color; et. Qed.
#[local] Hint Resolve ends_cfa_color : ends.
Lemma ends_cfa_new : forall (patname : string), ends (cfa_new patname). Proof. intros; unfold cfa_new; et. Qed.
#[local] Hint Resolve ends_cfa_new : ends.
Lemma ends_color_at : forall (f : CFA) (row col : Z), ends (color_at f row col). Proof. intros; unfold color_at; et. Qed.
#[local] Hint Resolve ends_color_at : ends.
Lemma ends_cfa_shift : forall (f : CFA) (x y : Z), ends (cfa_shift f x y). Proof. intros; unfold cfa_shift; et. Qed.
#[local] Hint Resolve ends_cfa_shift : ends.
Lemma ends_cropped_cfa : forall (f : CFA) (crops : list Z), ends (cropped_cfa f crops). Proof. intros; unfold cropped_cfa; et. Qed.
#[local] Hint Resolve ends_cropped_cfa : ends.
Lemma ends_cfa_clone : forall (f : CFA), ends (cfa_clone f). Proof. intros; unfold cfa_clone; et. Qed.
#[local] Hint Resolve ends_cfa_clone : ends.
Lemma ends_as_str : forall (v : value), ends (as_str v). Proof. intros; unfold as_str; et. Qed.
#[local] Hint Resolve ends_as_str : ends.
Lemma ends_as_integer : forall (v : value), ends (as_integer v). Proof. intros; unfold as_integer; et. Qed.
#[local] Hint Resolve ends_as_integer : ends.
Lemma ends_as_array : forall (v : value), ends (as_array v). Proof. intros; unfold as_array; et. Qed.
#[local] Hint Resolve ends_as_array : ends.
Lemma ends_as_table : forall (v : value), ends (as_table v). Proof. intros; unfold as_table; et. Qed.
#[local] Hint Resolve ends_as_table : ends.
Lemma ends_set3 : forall {A} (v : vec3 A) (i : Z) (x : A), ends (set3 v i x). Proof. intros; unfold set3; et. Qed.
#[local] Hint Resolve ends_set3 : ends.
Lemma ends_get4 : forall {A} (v : vec4 A) (i : Z), ends (get4 v i). Proof. intros; unfold get4; et. Qed.
#[local] Hint Resolve ends_get4 : ends.
Lemma ends_set4 : forall {A} (v : vec4 A) (i : Z) (x : A), ends (set4 v i x). Proof. intros; unfold set4; et. Qed.
#[local] Hint Resolve ends_set4 : ends.
Lemma ends_each : forall {S} (f : Z -> value -> S -> res S) l i s, (forall i v s, ends (f i v s)) -> ends (each f i l s).
Proof. intros S f l. induction l as [|v t IH]; intros i s H; cbn [each]; et. Qed.
#[local] Hint Resolve ends_each : ends.
Lemma ends_area_of : forall (v : value), ends (area_of v). Proof. intros; unfold area_of; et. Qed.
#[local] Hint Resolve ends_area_of : ends.
Lemma ends_matrix_of : forall (m : vec4 (vec3 f32)) (v : value), ends (matrix_of m v). Proof. intros; unfold matrix_of; repeat (et; try (match goal with |- ends (each _ _ _ _) => apply ends_each; intros ? ? ? end)). Qed.
#[local] Hint Resolve ends_matrix_of : ends.
Lemma ends_crops_of : forall (c : vec4 Z) (v : value), ends (crops_of c v). Proof. intros; unfold crops_of; repeat (et; try (match goal with |- ends (each _ _ _ _) => apply ends_each; intros ? ? ? end)). Qed.
#[local] Hint Resolve ends_crops_of : ends.
Lemma ends_set_attr : forall (name : string) (val : value) (c : camera), ends (set_attr name val c). Proof. intros; unfold set_attr; repeat (et; try (match goal with |- ends (each _ _ _ _) => apply ends_each; intros ? ? ? end)). Qed.
#[local] Hint Resolve ends_set_attr : ends.
Lemma ends_update_from_toml : forall (c : camera) (ct : table), ends (update_from_toml c ct). Proof. intros; unfold update_from_toml; repeat (et; try (match goal with |- ends (each _ _ _ _) => apply ends_each; intros ? ? ? end)). Qed.
#[local] Hint Resolve ends_update_from_toml : ends.
Lemma ends_camera_new : ends (camera_new ). Proof. intros; unfold camera_new; repeat (et; try (match goal with |- ends (each _ _ _ _) => apply ends_each; intros ? ? ? end)). Qed.
#[local] Hint Resolve ends_camera_new : ends.
Lemma ends_modes_of : forall (ct : table), ends (modes_of ct). Proof. intros; unfold modes_of; repeat (et; try (match goal with |- ends (each _ _ _ _) => apply ends_each; intros ? ? ? end)). Qed.
#[local] Hint Resolve ends_modes_of : ends.
Lemma ends_alias_of : forall (v : value), ends (alias_of v). Proof. intros; unfold alias_of; repeat (et; try (match goal with |- ends (each _ _ _ _) => apply ends_each; intros ? ? ? end)). Qed.
#[local] Hint Resolve ends_alias_of : ends.
Lemma ends_aliases_of : forall (ct : table), ends (aliases_of ct). Proof. intros; unfold aliases_of; repeat (et; try (match goal with |- ends (each _ _ _ _) => apply ends_each; intros ? ? ? end)). Qed.
#[local] Hint Resolve ends_aliases_of : ends.
Lemma ends_declared : forall (ct : table), ends (declared ct). Proof. intros; unfold declared; repeat (et; try (match goal with |- ends (each _ _ _ _) => apply ends_each; intros ? ? ? end)). Qed.
#[local] Hint Resolve ends_declared : ends.
Lemma ends_loader_new : forall (db : list table), ends (loader_new db). Proof. intros; unfold loader_new; repeat (et; try (match goal with |- ends (each _ _ _ _) => apply ends_each; intros ? ? ? end)). Qed.
#[local] Hint Resolve ends_loader_new : ends.
Lemma ends_check_supported_with_everything : forall (l : loader) (make model mode : string), ends (check_supported_with_everything l make model mode). Proof. intros; unfold check_supported_with_everything; et. Qed.
#[local] Hint Resolve ends_check_supported_with_everything : ends.
Lemma ends_LEf32 : forall (buf : list Z) (pos : Z), ends (LEf32 buf pos). Proof. intros; unfold LEf32; et. Qed.
#[local] Hint Resolve ends_LEf32 : ends.
Lemma ends_get_f32 : forall (en : entry) (idx : Z), ends (get_f32 en idx). Proof. intros; unfold get_f32; et. Qed.
#[local] Hint Resolve ends_get_f32 : ends.
Lemma ends_get_string : forall (en : entry), ends (get_string en). Proof. intros; unfold get_string; et. Qed.
#[local] Hint Resolve ends_get_string : ends.
Lemma ends_fetch_tag : forall (i : ifd) (tag : Z), ends (fetch_tag i tag). Proof. intros; unfold fetch_tag; et. Qed.
#[local] Hint Resolve ends_fetch_tag : ends.
Lemma ends_fetch_ifd : forall (i : ifd) (tag : Z), ends (fetch_ifd i tag). Proof. intros; unfold fetch_ifd; et. Qed.
#[local] Hint Resolve ends_fetch_ifd : ends.
Lemma ends_fetch_cifd_tag : forall (i : cifd) (tag : Z), ends (fetch_cifd_tag i tag). Proof. intros; unfold fetch_cifd_tag; et. Qed.
#[local] Hint Resolve ends_fetch_cifd_tag : ends.
Lemma ends_unwrap_entry : forall (i : ifd) (tag : Z), ends (unwrap_entry i tag). Proof. intros; unfold unwrap_entry; et. Qed.
#[local] Hint Resolve ends_unwrap_entry : ends.
Lemma ends_tag_usize : forall (i : ifd) (tag : Z), ends (tag_usize i tag). Proof. intros; unfold tag_usize; et. Qed.
#[local] Hint Resolve ends_tag_usize : ends.
Lemma ends_tag_f32 : forall (i : ifd) (tag idx : Z), ends (tag_f32 i tag idx). Proof. intros; unfold tag_f32; et. Qed.
#[local] Hint Resolve ends_tag_f32 : ends.
Lemma ends_orientation_from_tiff : forall (i : ifd), ends (orientation_from_tiff i). Proof. intros; unfold orientation_from_tiff; et. Qed.
#[local] Hint Resolve ends_orientation_from_tiff : ends.
Lemma ends_check_supported_with_mode : forall (l : loader) (tiff : ifd) (mode : string), ends (check_supported_with_mode l tiff mode). Proof. intros; unfold check_supported_with_mode; et. Qed.
#[local] Hint Resolve ends_check_supported_with_mode : ends.
Lemma ends_check_supported : forall (l : loader) (tiff : ifd), ends (check_supported l tiff). Proof. intros; unfold check_supported; et. Qed.
#[local] Hint Resolve ends_check_supported : ends.
Lemma ends_cfa_new_from_tag : forall (en : entry), ends (cfa_new_from_tag en). Proof. intros; unfold cfa_new_from_tag; et. Qed.
#[local] Hint Resolve ends_cfa_new_from_tag : ends.
Lemma ends_black_pixel : forall (f : CFA) (image : list Z) (width row col : Z) (st : vec4 f32 * vec4 f32), ends (black_pixel f image width row col st). Proof. intros; unfold black_pixel; et. Qed.
#[local] Hint Resolve ends_black_pixel : ends.
Lemma ends_black_levels : forall (camera : camera) (width height : Z) (image : list Z), ends (black_levels camera width height image). Proof. intros; unfold black_levels; et. Qed.
#[local] Hint Resolve ends_black_levels : ends.
Lemma ends_ok_image : forall (camera : camera) (width height : Z) (wb : vec4 f32) (image : list Z), ends (ok_image camera width height wb image). Proof. intros; unfold ok_image; et. Qed.
#[local] Hint Resolve ends_ok_image : ends.
Lemma ends_ok_image_with_blacklevels : forall c w h wb b i, ends (ok_image_with_blacklevels c w h wb b i). Proof. intros; unfold ok_image_with_blacklevels; et. Qed.
#[local] Hint Resolve ends_ok_image_with_blacklevels : ends.
Lemma ends_find_wide : forall (data : list ifd), ends (find_wide data). Proof. induction data as [|i t IH]; cbn [find_wide]; et. Qed.
#[local] Hint Resolve ends_find_wide : ends.
Lemma ends_ari_wb : forall (buf : list Z), ends (ari_wb buf). Proof. intros; unfold ari_wb; et. Qed.
#[local] Hint Resolve ends_ari_wb : ends.
Lemma ends_ari_image : forall (l : loader) (buf : list Z), ends (ari_image l buf). Proof. intros; unfold ari_image; et. Qed.
#[local] Hint Resolve ends_ari_image : ends.
Lemma ends_dcs_image : forall (l : loader) (buf : list Z) (tiff : ifd), ends (dcs_image l buf tiff). Proof. intros; unfold dcs_image; et. Qed.
#[local] Hint Resolve ends_dcs_image : ends.
Lemma ends_erf_wb : forall (tiff : ifd), ends (erf_wb tiff). Proof. intros; unfold erf_wb; et. Qed.
#[local] Hint Resolve ends_erf_wb : ends.
Lemma ends_erf_image : forall (l : loader) (buf : list Z) (tiff : ifd), ends (erf_image l buf tiff). Proof. intros; unfold erf_image; et. Qed.
#[local] Hint Resolve ends_erf_image : ends.
Lemma ends_mef_image : forall (l : loader) (buf : list Z) (tiff : ifd), ends (mef_image l buf tiff). Proof. intros; unfold mef_image; et. Qed.
#[local] Hint Resolve ends_mef_image : ends.
Lemma ends_nkd_image : forall (buf : list Z) (camera : camera), ends (nkd_image buf camera). Proof. intros; unfold nkd_image; et. Qed.
#[local] Hint Resolve ends_nkd_image : ends.
Lemma ends_inverse_wb : forall (levels : entry), ends (inverse_wb levels). Proof. intros; unfold inverse_wb; et. Qed.
#[local] Hint Resolve ends_inverse_wb : ends.
Lemma ends_tfr_image : forall (l : loader) (buf : list Z) (tiff : ifd), ends (tfr_image l buf tiff). Proof. intros; unfold tfr_image; et. Qed.
#[local] Hint Resolve ends_tfr_image : ends.
Lemma ends_kdc_wb : forall (tiff : ifd), ends (kdc_wb tiff). Proof. intros; unfold kdc_wb; et. Qed.
#[local] Hint Resolve ends_kdc_wb : ends.
Lemma ends_kdc_image : forall (l : loader) (buf : list Z) (tiff : ifd), ends (kdc_image l buf tiff). Proof. intros; unfold kdc_image; et. Qed.
#[local] Hint Resolve ends_kdc_image : ends.
Lemma ends_nrw_wb : forall (tiff : ifd) (camera : camera), ends (nrw_wb tiff camera). Proof. intros; unfold nrw_wb; et. Qed.
#[local] Hint Resolve ends_nrw_wb : ends.
Lemma ends_nrw_image : forall (l : loader) (buf : list Z) (tiff : ifd), ends (nrw_image l buf tiff). Proof. intros; unfold nrw_image; et. Qed.
#[local] Hint Resolve ends_nrw_image : ends.
Lemma ends_dcr_wb : forall (tiff : ifd), ends (dcr_wb tiff). Proof. intros; unfold dcr_wb; et. Qed.
#[local] Hint Resolve ends_dcr_wb : ends.
Lemma ends_seg_lens : forall (size : Z) (s : bstream), ends (seg_lens size s). Proof. intros; unfold seg_lens; et. Qed.
#[local] Hint Resolve ends_seg_lens : ends.
Lemma ends_seg_start : forall (size : Z) (s : bstream), ends (seg_start size s). Proof. intros; unfold seg_start; et. Qed.
#[local] Hint Resolve ends_seg_start : ends.
Lemma ends_seg_refill : forall (bits : Z) (bitbuf : Z) (s : bstream), ends (seg_refill bits bitbuf s). Proof. intros; unfold seg_refill; et. Qed.
#[local] Hint Resolve ends_seg_refill : ends.
Lemma ends_seg_value : forall (v len : Z), ends (seg_value v len). Proof. intros; unfold seg_value; et. Qed.
#[local] Hint Resolve ends_seg_value : ends.
Lemma ends_decode_segment : forall (size : Z) (s : bstream), ends (decode_segment size s). Proof. intros; unfold decode_segment; et. Qed.
#[local] Hint Resolve ends_decode_segment : ends.
Lemma ends_dcr_pixels : forall (curve : ltable) (at_ : Z) (vals : list Z) (random : Z) (out : list Z), ends (dcr_pixels curve at_ vals random out). Proof. intros; unfold dcr_pixels; et. Qed.
#[local] Hint Resolve ends_dcr_pixels : ends.
Lemma ends_decode_kodak65000 : forall (buf : list Z) (curve : ltable) (width height : Z), ends (decode_kodak65000 buf curve width height). Proof. intros; unfold decode_kodak65000; et. Qed.
#[local] Hint Resolve ends_decode_kodak65000 : ends.
Lemma ends_dcr_image : forall (l : loader) (buf : list Z) (tiff : ifd), ends (dcr_image l buf tiff). Proof. intros; unfold dcr_image; et. Qed.
#[local] Hint Resolve ends_dcr_image : ends.
End Ends4.
#[global] Hint Resolve ends_copy_offset_from_parent ends_get_force_u32 ends_get_force_u16 ends_get_str ends_is_ciff ends_cget_u32 ends_cget_force_u16 ends_pat_get ends_pat_set ends_cfa_dims ends_cfa_color ends_cfa_new ends_color_at ends_cfa_shift ends_cropped_cfa ends_cfa_clone ends_as_str ends_as_integer ends_as_array ends_as_table ends_set3 ends_get4 ends_set4 ends_each ends_area_of ends_matrix_of ends_crops_of ends_set_attr ends_update_from_toml ends_camera_new ends_modes_of ends_alias_of ends_aliases_of ends_declared ends_loader_new ends_check_supported_with_everything ends_LEf32 ends_get_f32 ends_get_string ends_fetch_tag ends_fetch_ifd ends_fetch_cifd_tag ends_unwrap_entry ends_tag_usize ends_tag_f32 ends_orientation_from_tiff ends_check_supported_with_mode ends_check_supported ends_cfa_new_from_tag ends_black_pixel ends_black_levels ends_ok_image ends_ok_image_with_blacklevels ends_find_wide ends_ari_wb ends_ari_image ends_dcs_image ends_erf_wb ends_erf_image ends_mef_image ends_nkd_image ends_inverse_wb ends_tfr_image ends_kdc_wb ends_kdc_image ends_nrw_wb ends_nrw_image ends_dcr_wb ends_seg_lens ends_seg_start ends_seg_refill ends_seg_value ends_decode_segment ends_dcr_pixels ends_decode_kodak65000 ends_dcr_image : ends.
