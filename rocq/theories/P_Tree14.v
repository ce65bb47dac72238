(** Whole files with nested directories (C62): Kodak, Nikon Coolpix. *)
From Coq Require Import String Ascii ZArith List Bool Reals Lia Lra.
From Flocq Require Import Core BinarySingleNaN.
From Verif Require Import Base Num F32 Bytes Pumps Lookup Packed Tiff Transform Image Camera Clients Decoder Dec_Simple Dispatch.
From Verif Require Import Spec_Bits Spec_Image Spec_Pump Spec_Stream Spec_Packed Spec_Tiff Spec_Camera Spec_Known Spec_Huffman Spec_Ljpeg Spec_Pred Spec_Curve Spec_Dcr Spec_Nikon Spec_Meta Spec_File Spec_Dng Spec_Tree Spec_TreeMore.
From Verif Require Import P_Base P_Bits P_Dispatch P_Pumps P_F32 P_Tiff3 P_Tiff5 P_Packed2 P_Packed3 P_Packed4 P_Packed5 P_Lookup P_Crw4 P_Dcr2 P_Meta1 P_Meta2 P_File1 P_File2 P_File3 P_File4 P_Dng1 P_Tree1 P_Tree2 P_Tree3 P_Tree13.
From Verif Require Props_Packed Props_Pred4.
Import ListNotations.
Local Open Scope Z_scope.

(** ** The first wide directory *)
(** Directories that were read from trees; some come twice in a row. *)
Inductive Again (big : bool) : list tree -> list ifd -> Prop :=
| again_nil : Again big [] []
| again_one : forall t i ts is, reads big t i -> Again big ts is -> Again big (t :: ts) (i :: is)
| again_two : forall t i ts is, reads big t i -> Again big (t :: ts) (i :: is) -> Again big (t :: ts) (i :: i :: is).
Lemma again_app : forall big a i b j, Again big a i -> Again big b j -> Again big (a ++ b) (i ++ j).
Proof. intros big a i b j H1 H2. induction H1; cbn [app] in *; [exact H2|apply again_one; assumption|apply again_two; assumption]. Qed.
Lemma in_again : forall big tag ts is, Forall (fun t => forall i, reads big t i -> Again big (filter (has_value tag) (all_trees t)) (find_ifds_with_tag i tag)) ts -> Forall2 (reads big) ts is ->
  Again big (filter (has_value tag) (flat_map all_trees ts)) (ifds_in is tag).
Proof.
  intros big tag ts is H H2. induction H2 as [|t i ts is Hr H2 IH]; [constructor|]. inversion H as [|? ? Ht Hts]; subst. cbn [flat_map ifds_in]. rewrite filter_app, (contains_value _ _ _ tag Hr), app_assoc.
  apply again_app; [|apply IH; exact Hts]. specialize (Ht i Hr). pose proof (contains_value _ _ _ tag Hr) as C. destruct t as [fs subs]. destruct i as [es is' nx s e]. cbn [all_trees filter] in *. rewrite find_ifds_eq in *. rewrite C in *.
  destruct (has_value tag (Tree fs subs)) eqn:E; cbn [app] in *; [|exact Ht]. apply again_two; [exact Hr|exact Ht].
Qed.
Lemma tree_again : forall big tag t i, reads big t i -> Again big (filter (has_value tag) (all_trees t)) (find_ifds_with_tag i tag).
Proof.
  intros big tag t. induction t as [fs subs IH] using tree_deep. intros i Hr. pose proof (contains_value _ _ _ tag Hr) as C. inversion Hr as [? ? es is nx Hnd Hst Hsub]; subst.
  rewrite find_ifds_eq, C. cbn [all_trees filter]. destruct (has_value tag (Tree fs subs)); cbn [app].
  - apply again_one; [exact Hr|]. apply in_again; assumption.
  - apply in_again; assumption.
Qed.
Lemma root_again : forall big tag ts is nx s e, Forall2 (reads big) ts is -> Again big (filter (has_value tag) (flat_map all_trees ts)) (find_ifds_with_tag (mkifd [] is nx s e) tag).
Proof. intros big tag ts is nx s e H. rewrite find_ifds_eq. cbn [contains i_entries lookup app]. apply in_again; [|exact H]. apply Forall_forall. intros t _ i. apply tree_again. Qed.

Section Any.
Context {M : Mode}.
Lemma find_wide_step : forall i rest w big t, reads big t i -> has_number (visible [t]) T_ImageWidth w ->
  find_wide (i :: rest) = if 1000 <? w then Ok i else find_wide rest.
Proof.
  intros i rest w big t Hr Hw. destruct (see_number _ _ _ _ _ (tree_sees _ _ _ Hr) Hw) as (en & E1 & _ & E3 & _). cbn [find_wide]. unfold unwrap_entry. rewrite E1. cbn [bind]. rewrite E3. reflexivity.
Qed.
Lemma wide_found : forall big cs is, Again big cs is -> forall before raw after, cs = before ++ raw :: after ->
  Forall (fun t => exists w, has_number (visible [t]) T_ImageWidth w /\ w <= 1000) before ->
  (exists w, has_number (visible [raw]) T_ImageWidth w /\ 1000 < w) -> exists i, find_wide is = Ok i /\ reads big raw i.
Proof.
  intros big cs is H. induction H as [|t i ts is Hr H IH|t i ts is Hr H IH]; intros before raw after E Hb Hw.
  - destruct before; discriminate E.
  - destruct before as [|b before]; cbn [app] in E.
    + assert (t = raw) as -> by congruence. destruct Hw as (w & Hw & L). rewrite (find_wide_step i is w big raw Hr Hw). replace (1000 <? w) with true by lia. eauto.
    + assert (t = b) as -> by congruence. assert (ts = before ++ raw :: after) as E' by congruence. inversion Hb as [|? ? (w' & Hw' & L') Hb']; subst.
      rewrite (find_wide_step i is w' big b Hr Hw'). replace (1000 <? w') with false by lia. eapply IH; eauto.
  - destruct before as [|b before]; cbn [app] in E.
    + assert (t = raw) as -> by congruence. destruct Hw as (w & Hw & L). rewrite (find_wide_step i _ w big raw Hr Hw). replace (1000 <? w) with true by lia. eauto.
    + assert (t = b) as -> by congruence. inversion Hb as [|? ? (w' & Hw' & L') Hb']; subst.
      rewrite (find_wide_step i _ w' big b Hr Hw'). replace (1000 <? w') with false by lia. exact (IH (b :: before) raw after E Hb Hw).
Qed.
Record WidePictured (big : bool) (file : list Z) (root : ifd) (which : Z) (raw : tree) (w h : Z) (data : list Z) (sub : ifd) : Prop := {
  wc_wide : find_wide (find_ifds_with_tag root which) = Ok sub;
  wc_sees : Sees big (visible [raw]) sub;
  wc_width : tag_usize sub T_ImageWidth = Ok w /\ 0 <= w < 2 ^ 32;
  wc_height : tag_usize sub T_ImageLength = Ok h /\ 0 <= h < 2 ^ 32;
  wc_start : exists off, tag_usize sub T_StripOffsets = Ok off /\ slice_from (buffer_new file) off = Ok (data ++ zeros 16);
  wc_bytes : bytes (data ++ zeros 16)
}.
Lemma wide_pictured : forall big ts file root which raw w h data, Nested big ts root -> bytes file -> wide_picture_at ts file which raw w h data ->
  exists sub, WidePictured big file root which raw w h data sub.
Proof.
  intros big ts file root which raw w h data P Hb [(before & after & D1 & D1' & D1'') D2 D3 (off & D4 & D5)]. destruct (n_tree _ _ _ P) as (is & -> & R).
  destruct (wide_found big _ _ (root_again big which ts is 0 0 big R) before raw after D1 D1' D1'') as (sub & F & Rs). exists sub. pose proof (tree_sees _ _ _ Rs) as S0.
  destruct (from_slice _ _ _ D5 Hb) as [X1 X2]. split; auto.
  - eapply see_usize; eassumption.
  - eapply see_usize; eassumption.
  - exists off. split; [apply (see_usize _ _ _ _ _ S0 D4)|exact X1].
Qed.
Lemma points_read : forall en vs, (forall k v, nth_error vs k = Some v -> get_u32 en (Z.of_nat k) = Ok v) -> samples vs -> forall n, n = Z.of_nat (length vs) ->
  mapM (fun i => v <- get_u32 en i ;; Ok (as_u16 v)) (zrange 0 n) = Ok vs.
Proof.
  intros en vs H Hs n ->. apply Forall2_mapM_Ok. unfold zrange. rewrite Z.sub_0_r, Nat2Z.id.
  assert (A : forall d, (forall k v, nth_error vs k = Some v -> get_u32 en (Z.of_nat (d + k)) = Ok v) -> Forall2 (fun i v => (v0 <- get_u32 en i ;; Ok (as_u16 v0)) = Ok v) (map (fun k => 0 + Z.of_nat k) (seq d (length vs))) vs).
  { clear H. revert Hs. induction vs as [|v vs IH]; intros Hs d H; [constructor|]. cbn [length seq map]. inversion Hs as [|? ? Hv Hs']; subst. constructor.
    - pose proof (H 0%nat v eq_refl) as G. rewrite Nat.add_0_r in G. cbn [Z.add]. replace (0 + Z.of_nat d) with (Z.of_nat d) by lia. rewrite G. cbn [bind]. unfold as_u16. unfold sample in Hv. rewrite Z.mod_small by (change (2 ^ 16) with 65536; lia). reflexivity.
    - apply IH; [exact Hs'|]. intros k u Hk. rewrite Nat.add_succ_comm. apply H. exact Hk. }
  apply (A 0%nat). exact H.
Qed.
Context (powf : f32 -> f32 -> f32) (parse_f32 : string -> option f32).
Variables (db : list table) (l : loader).
Hypothesis Hl : loader_new db = Ok l.
Ltac enter G := eapply lib_decodes; [exact Hl|]; unfold decode; rewrite G; cbn [bind decoder_image].
Ltac picture Hp Hd := destruct (pictured _ _ _ _ _ _ _ _ _ _ _ _ ltac:(eassumption) (tf_bytes _ _ _ (np_file _ _ _ _ _ _ _ _ _ Hp)) Hd) as (sub & [F1 F2 S2 [W Rw] [H Rh] (off & O2 & O3 & O4) B]).
Ltac wide Hp Hd := destruct (wide_pictured _ _ _ _ _ _ _ _ _ ltac:(eassumption) (tf_bytes _ _ _ (np_file _ _ _ _ _ _ _ _ _ Hp)) Hd) as (sub & [F2 S2 [W Rw] [H Rh] (off & O2 & O3) B]).

(** ** Kodak *)
Lemma dcr_nested : forall big ts raw model file w h o cam pic curve seg rest vs,
  nested_photo l "" big ts "Kodak" model file o cam ->
  picture_at ts file T_CFAPattern T_ImageWidth T_ImageLength T_StripOffsets raw w h (flat_map (fun r => flat_map (seg r) (upto (kodak_segments w))) (upto h) ++ rest) ->
  0 < w -> has_numbers (visible ts) T_DcrLinearization curve -> samples curve -> increasing curve -> not_too_steep curve ->
  (forall r c, 0 <= r < h -> 0 <= c < w -> 0 <= pic r c < Z.of_nat (length curve) /\ sample (pic r c)) ->
  (forall r k, 0 <= r < h -> 0 <= k < kodak_segments w -> Forall (fun d => Z.abs d < 2 ^ 15) (kodak_differences pic w r k) /\ kodak_segment (kodak_differences pic w r k) (seg r k)) ->
  has_bytes (visible ts) T_DcrWB vs ->
  exists img, lib_decode powf parse_f32 db file = Ok img /\ shows img cam o w h /\ is_image (i_data img) w h (toned_picture curve pic w 0) /\ i_blacks img = c_blacks cam /\
    kodak_balance img (visible ts) /\ e3 (i_wb img) = B754_nan.
Proof.
  intros big ts raw model file w h o cam pic curve seg rest vs Hp Hd Hw Hn Hc Hi Hst Hpic Hseg Hv. destruct (nested_opened _ _ _ _ _ _ _ _ _ DCR Hp eq_refl) as (root & [G P C N]). picture Hp Hd.
  destruct (see_numbers _ _ _ _ _ (n_sees _ _ _ P) Hn) as (ec & C1 & C2 & C3). destruct (see_has_bytes _ _ _ _ _ (n_sees _ _ _ P) Hv) as (en & E1 & E2 & E3).
  destruct (lookup_new_ok' curve Hc Hi Hst) as (table & Ht).
  destruct (Props_Pred4.C47_kodak w h pic curve seg (rest ++ zeros 16) table Hw (proj1 Rh) Hc Hi Hst Ht Hpic Hseg) as (out & D1 & D2). rewrite app_assoc in D1.
  assert (exists wb, dcr_wb root = Ok wb /\ e3 wb = B754_nan /\ (forall img : rawimage f32, i_wb img = wb -> kodak_balance img (visible ts))) as (wb & W1 & W2 & W3).
  { unfold dcr_wb, fetch_tag. rewrite E1. cbn [bind]. rewrite E2, E3. pose proof Hv as [_ Hb]. destruct (46 <=? Z.of_nat (length vs)) eqn:L.
    - destruct (be_two vs 40 Hb ltac:(lia) ltac:(lia)) as [R1 R2]. destruct (be_two vs 42 Hb ltac:(lia) ltac:(lia)) as [G1 G2]. destruct (be_two vs 44 Hb ltac:(lia) ltac:(lia)) as [B1 B2].
      rewrite R1, G1. cbn [bind]. rewrite B1. cbn [bind]. eexists. split; [reflexivity|]. split; [reflexivity|]. intros img Hw'. left. exists vs. rewrite Hw'. cbn [e0 e1 e2].
      split; [exact Hv|]. split; [lia|]. split; [|split]; intros Hz; apply divided_near; assumption.
    - eexists. split; [reflexivity|]. split; [reflexivity|]. intros img Hw'. right. exists vs. rewrite Hw'. split; [exact Hv|]. split; [lia|]. repeat split. }
  destruct (finished cam o w h wb out N) as (img & I1 & I2 & I3 & I4 & I5). exists img. rewrite I3. split; [|split; [exact I2|split; [exact D2|split; [exact I4|split; [apply W3; exact I5|rewrite I5; exact W2]]]]].
  enter G. unfold dcr_image, check_supported. rewrite C. cbn [bind]. rewrite F2. cbn [bind]. rewrite W, H, O2. cbn [bind]. rewrite O3. cbn [bind]. unfold fetch_tag at 1. rewrite C1. cbn [bind].
  rewrite (points_read ec curve (fun k v Hk => proj1 (C3 k v Hk)) Hc _ C2). cbn [bind]. rewrite Ht. cbn [bind]. rewrite D1. cbn [bind]. rewrite W1. exact I1.
Qed.
Lemma dcs_nested : forall big ts raw model file w h o cam data rest curve,
  nested_photo l "" big ts "KODAK" model file o cam ->
  wide_picture_at ts file T_StripOffsets raw w h (data ++ rest) -> Z.of_nat (length data) = w * h ->
  has_numbers (visible ts) T_GrayResponse curve -> Z.of_nat (length curve) = 256 -> samples curve -> increasing curve -> not_too_steep curve ->
  exists img, lib_decode powf parse_f32 db file = Ok img /\ shows img cam o w h /\ Z.of_nat (length (i_data img)) = w * h /\
    (forall r c, 0 <= r < h -> 0 <= c < w -> near curve (nth (Z.to_nat (r * w + c)) data 0) (nth (Z.to_nat (r * w + c)) (i_data img) 0)) /\ i_blacks img = c_blacks cam.
Proof.
  intros big ts raw model file w h o cam data rest curve Hp Hd Ld Hn Lc Hc Hi Hst. destruct (nested_opened _ _ _ _ _ _ _ _ _ DCS Hp eq_refl) as (root & [G P C N]). pose proof (wp_directory _ _ _ _ _ _ _ Hd) as (_ & _ & _ & _ & (w' & Hw1 & Hw2)). wide Hp Hd.
  assert (w = w') as <-. { pose proof (see_usize _ _ _ _ _ S2 Hw1) as [X _]. congruence. }
  destruct (see_numbers _ _ _ _ _ (n_sees _ _ _ P) Hn) as (ec & C1 & C2 & C3).
  destruct (Props_Packed.C05_8bit_table curve ((data ++ rest) ++ zeros 16) w h Hc Hi Hst Lc B ltac:(lia) (proj1 Rh)) as (tbl & out & T1 & T2 & T3 & T4).
  - rewrite !app_length. lia.
  - rewrite !app_length. change (length (zeros 16)) with 16%nat. nia.
  - destruct (finished cam o w h nans out N) as (img & I1 & I2 & I3 & I4 & I5). exists img. rewrite I3. split; [|split; [exact I2|split; [exact T3|split; [|exact I4]]]].
    + enter G. unfold dcs_image, check_supported. rewrite C. cbn [bind]. rewrite F2. cbn [bind]. rewrite W, H, O2. cbn [bind]. rewrite O3. cbn [bind]. unfold fetch_tag. rewrite C1. cbn [bind].
      rewrite (points_read ec curve (fun k v Hk => proj1 (C3 k v Hk)) Hc 256 ltac:(lia)). cbn [bind]. rewrite T1. cbn [bind]. rewrite T2. exact I1.
    + intros r c Hr Hcc. specialize (T4 r c Hr Hcc). rewrite <- app_assoc, app_nth1 in T4 by nia. exact T4.
Qed.

(** ** Nikon Coolpix *)
Lemma msb32_app : forall img w h rest, 0 < w -> 0 <= h -> (w * h) mod 8 = 0 -> Z.of_nat (length img) = w * h -> Forall (Spec_Packed.fits 12) img -> bytes rest ->
  decode_12be_msb32 (swapped 4 (pack 12 img) ++ rest) w h = Ok img.
Proof.
  intros img w h rest Hw Hh He Hl0 Hf Hr.
  assert (exists m, length img = (8 * m)%nat) as [m Em] by (exists (length img / 8)%nat; lia).
  assert (Hm : (12 * length img = 8 * (4 * (3 * m)))%nat) by lia.
  pose proof (pack_length 12 img _ Hm) as L. pose proof (swapped_length 4 _ (pack 12 img) ltac:(lia) L) as L2.
  destruct (decode_12be_msb32_image (swapped 4 (pack 12 img) ++ rest) w h) as [img' [E I]]; auto.
  - apply Forall_app. split; [eapply swapped_bytes; [lia|apply Nat.le_refl|apply pack_bytes]|exact Hr].
  - unfold zlen. rewrite app_length. lia.
  - rewrite E. f_equal. apply (image_determined img img' w h _ Hw Hh I Hl0). intros r c H1 H2. cbv beta.
    rewrite (swapped_app 4 (3 * m)) by (try lia; exact L2). rewrite (swapped_swapped 4 (3 * m)) by (try lia; exact L). apply packed_sample_pack; eauto. unfold zlen. rewrite Hl0. nia.
Qed.
Lemma le_four : forall vs k, bytes vs -> 0 <= k -> k + 4 <= Z.of_nat (length vs) -> LEu32 vs k = Ok (four_bytes vs k) /\ 0 <= four_bytes vs k < 2 ^ 32.
Proof.
  intros vs k Hb H0 H1. rewrite LEu32_spec by assumption. split; [reflexivity|]. unfold four_bytes.
  assert (bytes (firstn 4 (skipn (Z.to_nat k) vs))) as B by (apply Forall_forall; intros x Hx; apply (proj1 (Forall_forall _ _) Hb); rewrite <- (firstn_skipn (Z.to_nat k) vs), <- (firstn_skipn 4 (skipn _ vs)); apply in_or_app; right; apply in_or_app; left; exact Hx).
  pose proof (little_endian_value_range _ B) as Q. rewrite firstn_length, skipn_length in Q. replace (Nat.min 4 (length vs - Z.to_nat k)) with 4%nat in Q by lia. exact Q.
Qed.
Lemma same_no : forall a b, a <> b -> same_bytes a b = false.
Proof. intros a b H. destruct (same_bytes a b) eqn:E; [|reflexivity]. apply same_bytes_eq in E. contradiction. Qed.
Lemma field_read : forall vs r g b, bytes vs -> coolpix_field vs r g b -> exists wb,
  (nrw <- at_is vs 0 [78; 82; 87] ;;
   if nrw : bool then
     v <- at_is vs 4 [48; 49; 48; 48] ;;
     let offset := if v : bool then 1556 else 56 in
     r <- LEu32 vs offset ;; g1 <- LEu32 vs (offset + 4) ;; g2 <- LEu32 vs (offset + 8) ;;
     g <- u32add g1 g2 ;; b <- LEu32 vs (offset + 12) ;;
     Ok (V4 (f32_of (as_u32 (Z.shiftl r 2))) (f32_of g) (f32_of (as_u32 (Z.shiftl b 2))) NAN)
   else r <- BEu16 vs 1248 ;; b <- BEu16 vs 1250 ;; Ok (V4 (f32_of r) (flit 256 1) (f32_of b) NAN)) = Ok wb /\
  nearest (e0 wb) (IZR r) /\ nearest (e1 wb) (IZR g) /\ nearest (e2 wb) (IZR b) /\ e3 wb = B754_nan.
Proof.
  intros vs r g b Hb [(H1 & k & H2 & Lk & -> & -> & -> & R1 & R2 & R3)|(H1 & L & -> & -> & ->)].
  - assert (P : 0 <= k /\ 8 <= Z.of_nat (length vs)) by (destruct H2 as [[_ ->]|[_ ->]]; lia).
    destruct (le_four vs k Hb ltac:(lia) ltac:(lia)) as [A1 A2]. destruct (le_four vs (k + 4) Hb ltac:(lia) ltac:(lia)) as [B1 B2]. destruct (le_four vs (k + 8) Hb ltac:(lia) ltac:(lia)) as [C1 C2]. destruct (le_four vs (k + 12) Hb ltac:(lia) ltac:(lia)) as [D1 D2].
    rewrite is_at by (unfold zlen; cbn [length]; lia). change (firstn (length [78; 82; 87]) (skipn (Z.to_nat 0) vs)) with (firstn 3 vs). rewrite H1. change (same_bytes (codes_of "NRW") [78; 82; 87]) with true. cbn [bind].
    rewrite is_at by (unfold zlen; cbn [length]; lia). change (firstn (length [48; 49; 48; 48]) (skipn (Z.to_nat 4) vs)) with (firstn 4 (skipn 4 vs)). cbn [bind].
    replace (if same_bytes (firstn 4 (skipn 4 vs)) [48; 49; 48; 48] then 1556 else 56) with k.
    + cbv zeta. rewrite A1. cbn [bind]. rewrite B1. cbn [bind]. rewrite C1. cbn [bind]. unfold u32add. rewrite arith_u_ok by lia. cbn [bind]. rewrite D1. cbn [bind].
      rewrite !Z.shiftl_mul_pow2 by lia. change (2 ^ 2) with 4. unfold as_u32. rewrite !Z.mod_small by lia. rewrite !(Z.mul_comm _ 4). eexists. split; [reflexivity|]. cbn [e0 e1 e2 e3]. split; [apply number_near; lia|]. split; [apply number_near; lia|]. split; [apply number_near; lia|reflexivity].
    + destruct H2 as [[H2 ->]|[H2 ->]]; [rewrite H2; reflexivity|]. rewrite same_no; [reflexivity|exact H2].
  - destruct (be_two vs 1248 Hb ltac:(lia) ltac:(lia)) as [A1 A2]. destruct (be_two vs 1250 Hb ltac:(lia) ltac:(lia)) as [B1 B2].
    rewrite is_at by (unfold zlen; cbn [length]; lia). change (firstn (length [78; 82; 87]) (skipn (Z.to_nat 0) vs)) with (firstn 3 vs). rewrite same_no by exact H1. cbn [bind]. rewrite A1. cbn [bind]. rewrite B1. cbn [bind].
    change (2 ^ 16) with 65536 in *. eexists. split; [reflexivity|]. cbn [e0 e1 e2 e3]. split; [apply number_near; lia|]. split; [|split; [apply number_near; lia|reflexivity]].
    destruct (flit_int 256 ltac:(lia)) as [X Y]. split; [exact X|]. intros y _. rewrite Y, Rminus_diag_eq by reflexivity. rewrite Rabs_R0. apply Rabs_pos.
Qed.
Lemma nrw_nested : forall big ts raw model file w h o cam data image white,
  nested_photo l "" big ts "NIKON" model file o cam ->
  wide_picture_at ts file T_CFAPattern raw w h data -> Z.even w = true -> coolpix_rows cam w h image data -> coolpix_white big cam (visible ts) white ->
  exists img, lib_decode powf parse_f32 db file = Ok img /\ shows img cam o w h /\ i_data img = image /\ i_blacks img = c_blacks cam /\ white img /\ e3 (i_wb img) = B754_nan.
Proof.
  intros big ts raw model file w h o cam data image white Hp Hd He Hr Hb. destruct (nested_opened _ _ _ _ _ _ _ _ _ NRW Hp eq_refl) as (root & [G P C N]). pose proof (wp_directory _ _ _ _ _ _ _ Hd) as (_ & _ & _ & _ & (w' & Hw1 & Hw2)). wide Hp Hd.
  assert (w = w') as <-. { pose proof (see_usize _ _ _ _ _ S2 Hw1) as [X _]. congruence. }
  assert (exists wb, nrw_wb root (set_orientation o cam) = Ok wb /\ e3 wb = B754_nan /\ (forall img : rawimage f32, i_wb img = wb -> white img)) as (wb & W1 & W2 & W3).
  { unfold nrw_wb. change (find_hint (set_orientation o cam)) with (find_hint cam). destruct Hb as [Hn|[r1 r2] [b1 b2] more Hn Hb|vs r g b Hn Hno Hv Hb]; rewrite Hn.
    - eexists. split; [reflexivity|]. split; [reflexivity|]. intros img Ei. rewrite Ei. repeat split.
    - destruct (see_fractions _ _ _ _ _ (n_sees _ _ _ P) Hb) as (en & E1 & _ & E3).
      destruct (E3 0%nat _ _ eq_refl) as (x & X1 & X2). destruct (E3 1%nat _ _ eq_refl) as (y & Y1 & Y2). change (Z.of_nat 0) with 0 in X1. change (Z.of_nat 1) with 1 in Y1.
      rewrite E1, X1. cbn [bind]. rewrite Y1. cbn [bind]. eexists. split; [reflexivity|]. split; [reflexivity|]. intros img Ei. rewrite Ei.
      cbn [e0 e1 e2 fst snd]. split; [exact X2|]. split; [apply near_1|exact Y2].
    - rewrite (s_no _ _ _ (n_sees _ _ _ P) _ Hno). destruct (see_has_bytes _ _ _ _ _ (n_sees _ _ _ P) Hv) as (en & E1 & E2 & E3). rewrite E1. cbv zeta. rewrite E3.
      destruct (field_read vs r g b (proj2 Hv) Hb) as (wb & F & Q). cbv zeta in F. exists wb. split; [exact F|]. split; [apply Q|]. intros img Ei. unfold balance. rewrite Ei. exact Q. }
  destruct (finished cam o w h wb image N) as (img & I1 & I2 & I3 & I4 & I5). exists img. split; [|split; [exact I2|split; [exact I3|split; [exact I4|split; [apply W3; exact I5|rewrite I5; exact W2]]]]].
  enter G. unfold nrw_image, check_supported. rewrite C. cbn [bind]. rewrite F2. cbn [bind]. rewrite W, H, O2. cbn [bind]. rewrite O3. cbn [bind]. change (find_hint (set_orientation o cam)) with (find_hint cam).
  assert (D : (if find_hint cam "coolpixsplit" then decode_12be_interlaced_unaligned (data ++ zeros 16) w h else if find_hint cam "msb32" then decode_12be_msb32 (data ++ zeros 16) w h else decode_12be (data ++ zeros 16) w h) = Ok image).
  { destruct Hr as [(H1 & H2 & Ln & Hf & rest & ->)|[(H1 & evens & odds & rest & Hl' & Hf & Ho & -> & -> & ->)|(H1 & H2 & Ln & H8 & Hf & rest & ->)]]; rewrite H1, ?H2; rewrite <- app_assoc in *; apply Forall_app in B.
    - apply Props_Packed.C06_12be; [lia|apply even_mod; exact He|lia|exact Ln|exact Hf|exact (proj2 B)].
    - apply Forall_app in Hl'. apply Forall_app in Hf. apply Props_Packed.C06_12be_interlaced_contiguous; [lia|apply even_mod; exact He|apply Hl'|apply Hl'|apply Hf|apply Hf|exact Ho|exact (proj2 B)].
    - apply msb32_app; [lia|lia|exact H8|exact Ln|exact Hf|exact (proj2 B)]. }
  rewrite D. cbn [bind]. rewrite W1. exact I1.
Qed.
End Any.
