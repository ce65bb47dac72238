(** Proofs that loops end: the decoders of formats. *)
From Coq Require Import String ZArith List Bool Lia ZifyBool ZifyNat.
From Verif Require Import Base Num F32 Bytes Pumps ByteStream Threads Packed Huffman Lookup Ljpeg Mos Raf Cr2 Arw Tiff Ciff Camera Cfa Image Decoder Dec_Simple Dec_Header Dec_Crw Dec_Pred Dec_Nef Dec_Ljpeg Spec_Bits P_Base P_Bits P_Pumps P_Tiff2 P_Tiff3 P_Ends1 P_Ends2 P_Ends3.
Import ListNotations.
Local Open Scope Z_scope.
Ltac Zify.zify_post_hook ::= Z.div_mod_to_equations.

Lemma get_Forall : forall {A} (P : A -> Prop) l i v, Forall P l -> get l i = Ok v -> P v.
Proof.
  intros A P l i v F H. apply get_ok_inv in H. destruct H as [_ E]. rewrite Forall_forall in F. apply F. eapply nth_error_In. exact E.
Qed.
Section Ends5.
Context {M : Mode}.
Lemma ends_is_mrw : forall (buf : list Z), ends (is_mrw buf). Proof. intros; unfold is_mrw; et. Qed.
#[local] Hint Resolve ends_is_mrw : ends.
Lemma ends_mrw_block : forall (buf : list Z) (currpos tag : Z) (m : mrw_info), ends (mrw_block buf currpos tag m). Proof. intros; unfold mrw_block; et. Qed.
#[local] Hint Resolve ends_mrw_block : ends.
Lemma ends_mrw_image : forall (l : loader) (buf : list Z) (d : mrw_info * Z * ifd), ends (mrw_image l buf d). Proof. intros; unfold mrw_image; destruct d as [[? ?] ?]; et. Qed.
#[local] Hint Resolve ends_mrw_image : ends.
Lemma ends_is_x3f : forall (buf : list Z), ends (is_x3f buf). Proof. intros; unfold is_x3f; et. Qed.
#[local] Hint Resolve ends_is_x3f : ends.
Lemma ends_x3f_entry_new : forall (buf : list Z) (offset : Z), ends (x3f_entry_new buf offset). Proof. intros; unfold x3f_entry_new; et. Qed.
#[local] Hint Resolve ends_x3f_entry_new : ends.
Lemma ends_x3f_dir_new : forall (buf : list Z) (offset : Z), ends (x3f_dir_new buf offset). Proof. intros; unfold x3f_dir_new; et. Qed.
#[local] Hint Resolve ends_x3f_dir_new : ends.
Lemma ends_x3f_file_new : forall (buf : list Z) (size : Z), ends (x3f_file_new buf size). Proof. intros; unfold x3f_file_new; et. Qed.
#[local] Hint Resolve ends_x3f_file_new : ends.
Lemma ends_x3f_new : forall (buf : list Z) (size : Z), ends (x3f_new buf size). Proof. intros; unfold x3f_new; et. Qed.
#[local] Hint Resolve ends_x3f_new : ends.
Lemma ends_x3f_image : forall (l : loader) (buf : list Z) (images : list x3f_entry), ends (x3f_image l buf images). Proof. intros; unfold x3f_image; et. Qed.
#[local] Hint Resolve ends_x3f_image : ends.
Lemma ends_crw_fill : forall (max len leaf : Z) (st : Z * list (Z * Z)), ends (crw_fill max len leaf st). Proof. intros; unfold crw_fill; et. Qed.
#[local] Hint Resolve ends_crw_fill : ends.
Lemma ends_crw_table : forall (source : list Z), ends (crw_table source). Proof. intros; unfold crw_table; et. Qed.
#[local] Hint Resolve ends_crw_table : ends.
Lemma ends_crw_leaf : forall (t : crwtable) (p : pump), ends (crw_leaf t p). Proof. intros; unfold crw_leaf; et. Qed.
#[local] Hint Resolve ends_crw_leaf : ends.
Lemma ends_crw_tables : forall (dectable : Z), ends (crw_tables dectable). Proof. intros; unfold crw_tables; et. Qed.
#[local] Hint Resolve ends_crw_tables : ends.
Lemma ends_crw_diff : forall (len : Z) (p : pump), ends (crw_diff len p). Proof. intros; unfold crw_diff; et. Qed.
#[local] Hint Resolve ends_crw_diff : ends.
(** The leaves of a tree are bytes: every turn advances. *)
Definition leaves_ok (t : crwtable) : Prop := Forall (fun e => 0 <= snd e) (ct_tbl t).
Lemma crw_fill_ok : forall max len leaf h tbl h' tbl', 0 <= leaf -> Forall (fun e => 0 <= snd e) tbl ->
  crw_fill max len leaf (h, tbl) = Ok (h', tbl') -> Forall (fun e : Z * Z => 0 <= snd e) tbl'.
Proof.
  intros max len leaf h tbl h' tbl' L F H. unfold crw_fill in H.
  refine (rfold_inv _ (fun st : Z * list (Z * Z) => Forall (fun e => 0 <= snd e) (snd st)) _ (h, tbl) (h', tbl') _ F H).
  intros x [h1 t1] [h2 t2] _ K Hf. cbn [snd] in *. destruct (h1 <=? 2 ^ max); [|apply Ok_inj' in Hf; injection Hf as _ <-; exact K].
  ib Hf. apply Ok_inj' in Hf. injection Hf as _ <-. eapply upd_Forall; [exact E|exact K|exact L].
Qed.
Lemma crw_table_ok : forall source t, Forall (fun v => 0 <= v) source -> crw_table source = Ok t -> leaves_ok t.
Proof.
  intros source t S H. unfold crw_table in H. ib H. destruct x as [[a b] tbl]. apply Ok_inj' in H. subst t. unfold leaves_ok. cbn [ct_tbl].
  refine (rfold_inv _ (fun st : Z * Z * list (Z * Z) => Forall (fun e => 0 <= snd e) (snd st)) _ _ _ _ _ E).
  - intros len [[p1 h1] t1] s2 _ K Hf. ib Hf.
    refine (rfold_inv _ (fun st : Z * Z * list (Z * Z) => Forall (fun e => 0 <= snd e) (snd st)) _ (p1, h1, t1) _ _ K Hf).
    intros y [[p3 h3] t3] [[p4 h4] t4] _ K2 Hg. cbn [snd] in *. ib Hg. ib Hg. destruct x1 as [h5 t5]. apply Ok_inj' in Hg. injection Hg as _ _ <-.
    eapply crw_fill_ok; [|exact K2|exact E2]. eapply (get_Forall (fun v => 0 <= v)); [exact S|exact E1].
  - cbn [snd]. apply Forall_forall. intros e I. apply repeat_spec in I. subst e. cbn. lia.
Qed.
Lemma crw_tables_ok : forall n ts, crw_tables n = Ok ts -> leaves_ok (fst ts) /\ leaves_ok (snd ts).
Proof.
  intros n ts H. unfold crw_tables in H.
  assert (G : forall a b : list Z, forallb (Z.leb 0) a = true -> forallb (Z.leb 0) b = true ->
    (x <- crw_table a ;; y <- crw_table b ;; Ok (x, y)) = Ok ts -> leaves_ok (fst ts) /\ leaves_ok (snd ts)).
  { intros a b A B K. ib K. ib K. apply Ok_inj' in K. subst ts. cbn [fst snd].
    split; (eapply crw_table_ok; [|eassumption]); apply Forall_forall; intros v I.
    - rewrite forallb_forall in A. specialize (A v I). lia.
    - rewrite forallb_forall in B. specialize (B v I). lia. }
  destruct (n =? 0); [|destruct (n =? 1)]; (eapply G; [| |exact H]); reflexivity.
Qed.
Lemma crw_leaf_ok : forall t p v p', leaves_ok t -> crw_leaf t p = Ok (v, p') -> 0 <= v.
Proof.
  intros t p v p' L H. unfold crw_leaf in H. ib H. destruct x as [c p1]. ib H. destruct x as [len leaf]. ib H. apply Ok_inj' in H. injection H as <- _.
  eapply (get_Forall (fun e : Z * Z => 0 <= snd e)) in E0; [|exact L]. exact E0.
Qed.
Lemma ends_crw_block : forall fuel ts i d p, leaves_ok (fst ts) -> leaves_ok (snd ts) -> 0 <= i -> (Z.to_nat (64 - i) < fuel)%nat ->
  ends (crw_block fuel ts i d p).
Proof.
  induction fuel as [|n IH]; intros ts i d p A B H F; [lia|]. cbn [crw_block]. destruct (i <? 64) eqn:E; [|et].
  apply ends_bind_ok; [et|]. intros [leaf p1] L.
  assert (0 <= leaf). { eapply crw_leaf_ok; [|exact L]. destruct (0 <? i); assumption. }
  assert (0 <= Z.shiftr leaf 4) by (apply Z.shiftr_nonneg; assumption).
  destruct (_ && _); [et|]. destruct (leaf =? 255); [apply IH; try assumption; lia|]. cbv zeta.
  destruct (Z.land leaf 15 =? 0); [apply IH; try assumption; lia|].
  apply ends_bind; [et|]. intros [diff p2]. apply ends_bind; [et|]. intros d2. apply IH; try assumption; lia.
Qed.
Lemma ends_crw_pixels : forall (width : Z) (diffbuf : list Z) (st : list Z * Z * list Z), ends (crw_pixels width diffbuf st). Proof. intros; destruct st as [[? ?] ?]; unfold crw_pixels; et. Qed.
#[local] Hint Resolve ends_crw_pixels : ends.
Lemma ends_crw_high : forall ts src w h, leaves_ok (fst ts) -> leaves_ok (snd ts) -> ends (crw_high ts src w h).
Proof.
  intros ts src w h A B. unfold crw_high. apply ends_bind; [|intros [[[[? ?] ?] ?] ?]; et]. apply ends_rfold. intros x [[[[p c] b] n] dn].
  apply ends_bind; [apply ends_crw_block; [assumption|assumption|lia|lia]|]. intros [diff p1]. et.
Qed.
#[local] Hint Resolve ends_crw_high : ends.
Lemma ends_crw_low : forall (width o b : Z), ends (crw_low width o b). Proof. intros; unfold crw_low; et. Qed.
#[local] Hint Resolve ends_crw_low : ends.
Lemma ends_crw_lows : forall (buf : list Z) (width : Z) (out : list Z), ends (crw_lows buf width out). Proof. intros; unfold crw_lows; et. Qed.
#[local] Hint Resolve ends_crw_lows : ends.
Lemma ends_crw_decompress : forall buf ciff cam w h, ends (crw_decompress buf ciff cam w h).
Proof.
  intros buf ciff cam w h. unfold crw_decompress. apply ends_bind; [et|]. intros en. apply ends_bind; [et|]. intros dt.
  destruct (2 <? dt); [et|]. cbv zeta. apply ends_bind_ok; [et|]. intros ts T. destruct (crw_tables_ok dt ts T) as [A B]. et.
Qed.
#[local] Hint Resolve ends_crw_decompress : ends.
Lemma ends_cget_f32 : forall (en : centry) (idx : Z), ends (cget_f32 en idx). Proof. intros; unfold cget_f32; et. Qed.
#[local] Hint Resolve ends_cget_f32 : ends.
Lemma ends_cget_wb : forall (en : centry) (i j k : Z), ends (cget_wb en i j k). Proof. intros; unfold cget_wb; et. Qed.
#[local] Hint Resolve ends_cget_wb : ends.
Lemma ends_crw_wb1 : forall (cam : camera) (cinfo : centry), ends (crw_wb1 cam cinfo). Proof. intros; unfold crw_wb1; et. Qed.
#[local] Hint Resolve ends_crw_wb1 : ends.
Lemma ends_crw_wb : forall (ciff : cifd) (cam : camera), ends (crw_wb ciff cam). Proof. intros; unfold crw_wb; et. Qed.
#[local] Hint Resolve ends_crw_wb : ends.
Lemma ends_crw_image : forall (l : loader) (buf : list Z) (ciff : cifd), ends (crw_image l buf ciff). Proof. intros; unfold crw_image; et. Qed.
#[local] Hint Resolve ends_crw_image : ends.

Lemma tree_table_ok : forall tree p t, tree_table tree p = Ok t -> tab_ok t.
Proof. intros tree p t H. unfold tree_table in H. ib H. ib H. apply huff_new_ok in H. exact H. Qed.
#[local] Hint Resolve tree_table_ok : ends.
Lemma pef_table_ok : forall d e t, pef_table d e = Ok t -> tab_ok t.
Proof.
  intros d e t H. unfold pef_table in H. ib H. destruct x. cbv zeta in H. ib H. destruct x. ib H. destruct x. ib H. destruct x. ib H. destruct x. apply huff_new_ok in H. exact H.
Qed.
#[local] Hint Resolve pef_table_ok : ends.
Lemma ends_iiq_zeros : forall (n : nat) (j : Z) (p : pump), ends (iiq_zeros n j p). Proof. induction n as [|n IH]; intros; cbn [iiq_zeros]; et. Qed.
#[local] Hint Resolve ends_iiq_zeros : ends.
Lemma ends_iiq_len : forall (len : Z) (p : pump), ends (iiq_len len p). Proof. intros; unfold iiq_len; et. Qed.
#[local] Hint Resolve ends_iiq_len : ends.
Lemma ends_iiq_pred : forall (i pred : Z) (p : pump), ends (iiq_pred i pred p). Proof. intros; unfold iiq_pred; et. Qed.
#[local] Hint Resolve ends_iiq_pred : ends.
Lemma ends_iiq_pixel : forall (width col : Z) (st : pump * (Z * Z) * (Z * Z)), ends (iiq_pixel width col st). Proof. intros; destruct st as [[? [? ?]] [? ?]]; unfold iiq_pixel; et. Qed.
#[local] Hint Resolve ends_iiq_pixel : ends.
Lemma ends_iiq_line : forall (n : nat) (width col : Z) (st : pump * (Z * Z) * (Z * Z)), ends (iiq_line n width col st). Proof. induction n as [|n IH]; intros; cbn [iiq_line]; et. Qed.
#[local] Hint Resolve ends_iiq_line : ends.
Lemma ends_iiq_decompress : forall (buf : list Z) (data_offset strip_offset width height : Z), ends (iiq_decompress buf data_offset strip_offset width height). Proof. intros; unfold iiq_decompress; et. Qed.
#[local] Hint Resolve ends_iiq_decompress : ends.
Lemma ends_iiq_header : forall (buf : list Z), ends (iiq_header buf). Proof. intros; unfold iiq_header; et. Qed.
#[local] Hint Resolve ends_iiq_header : ends.
Lemma ends_iiq_image : forall (l : loader) (buf : list Z) (tiff : ifd), ends (iiq_image l buf tiff). Proof. intros; unfold iiq_image; et. Qed.
#[local] Hint Resolve ends_iiq_image : ends.
Lemma ends_tree_table : forall (tree : list Z) (precision : Z), ends (tree_table tree precision). Proof. intros; unfold tree_table; et. Qed.
#[local] Hint Resolve ends_tree_table : ends.
Lemma ends_pef_code : forall (v0 v1 : list Z) (c : Z) (st : list Z * list Z), ends (pef_code v0 v1 c st). Proof. intros; destruct st as [? ?]; unfold pef_code; et. Qed.
#[local] Hint Resolve ends_pef_code : ends.
Lemma ends_pef_smallest : forall (depth i : Z) (st : list Z * list Z), ends (pef_smallest depth i st). Proof. intros; destruct st as [? ?]; unfold pef_smallest; et. Qed.
#[local] Hint Resolve ends_pef_smallest : ends.
Lemma ends_pef_table : forall (data : list Z) (e : endian), ends (pef_table data e). Proof. intros; unfold pef_table; et. Qed.
#[local] Hint Resolve ends_pef_table : ends.
Lemma ends_pair_diff : forall (t : hufftable) (a b : Z) (p : pump), tab_ok t -> ends (pair_diff t a b p). Proof. intros; unfold pair_diff; et. Qed.
#[local] Hint Resolve ends_pair_diff : ends.
Lemma ends_put_pair : forall (out : list Z) (at_ a b : Z), ends (put_pair out at_ a b). Proof. intros; unfold put_pair; et. Qed.
#[local] Hint Resolve ends_put_pair : ends.
Lemma ends_pef_rows : forall (t : hufftable) (src : list Z) (width height : Z), tab_ok t -> ends (pef_rows t src width height). Proof. intros; unfold pef_rows; et. Qed.
#[local] Hint Resolve ends_pef_rows : ends.
Lemma ends_pef_decompress : forall (tiff : ifd) (src : list Z) (width height : Z), ends (pef_decompress tiff src width height). Proof. intros; unfold pef_decompress. apply ends_bind_ok; [et|]. intros t H. apply ends_pef_rows. destruct (find_entry tiff T_PefHuffman); [eapply pef_table_ok|eapply tree_table_ok]; exact H. Qed.
#[local] Hint Resolve ends_pef_decompress : ends.
Lemma ends_pef_blacks : forall (tiff : ifd) (default : vec4 Z), ends (pef_blacks tiff default). Proof. intros; unfold pef_blacks; et. Qed.
#[local] Hint Resolve ends_pef_blacks : ends.
Lemma ends_pef_image : forall (l : loader) (buf : list Z) (tiff : ifd), ends (pef_image l buf tiff). Proof. intros; unfold pef_image; et. Qed.
#[local] Hint Resolve ends_pef_image : ends.
Lemma ends_orf_nbits : forall fuel carry i nbits, 0 <= carry < 2 ^ 31 -> 0 <= nbits + i <= 31 -> (Z.to_nat (31 - (nbits + i)) < fuel)%nat -> ends (orf_nbits fuel carry i nbits).
Proof.
  induction fuel as [|n IH]; intros carry i nbits C N F; [lia|]. cbn [orf_nbits]. unfold shamt. replace ((0 <=? nbits + i) && (nbits + i <? 32)) with true by lia. cbn [bind].
  destruct (Z.eq_dec (nbits + i) 31) as [E|E].
  - rewrite E, Z.shiftr_div_pow2, Z.div_small by lia. cbn. et.
  - destruct (0 <? _); [|et]. apply IH; lia.
Qed.
Lemma orf_nbits_ge : forall fuel carry i nbits v, orf_nbits fuel carry i nbits = Ok v -> nbits <= v.
Proof.
  induction fuel as [|n IH]; intros carry i nbits v H; [discriminate|]. cbn [orf_nbits] in H. ib H. destruct (0 <? _); [apply IH in H; lia|apply Ok_inj' in H; lia].
Qed.
Lemma ends_orf_diff : forall c0 c1 c2 p, 0 <= c0 < 2 ^ 31 -> ends (orf_diff c0 c1 c2 p).
Proof.
  intros c0 c1 c2 p C. unfold orf_diff. cbv zeta. apply ends_bind; [apply ends_orf_nbits; [exact C| |]; destruct (c2 <? 3); lia|]. intros nb. et.
Qed.
Lemma orf_diff_inv : forall c0 c1 c2 p d l a0 a1 a2 p', wf MSB p -> orf_diff c0 c1 c2 p = Ok (d, l, (a0, a1, a2), p') -> wf MSB p' /\ 0 <= a0 < 2 ^ 31.
Proof.
  intros c0 c1 c2 p d l a0 a1 a2 p' W H. unfold orf_diff in H. cbv zeta in H. ib H. rename x into nb. apply orf_nbits_ge in E.
  assert (N : 2 <= Z.min nb 16 <= 16) by (destruct (c2 <? 3); lia). set (n := Z.min nb 16) in *. clearbody n. clear E.
  ib H. destruct x as [b p1]. destruct (wf_peeki MSB p 15 b p1 ltac:(discriminate) W ltac:(lia) E) as [W1 [B1 L1]].
  ib H. destruct x as [high p2]. ib H. destruct x as [v p3]. ib H. ib H. ib H. ib H. apply Ok_inj' in H. injection H as _ _ <- _ _ <-.
  assert (G : wf MSB p2 /\ 0 <= high < 2 ^ 13).
  { destruct (orf_high (Z.land b 4095) =? 12) eqn:E12.
    - ib E0. rename x3 into q. ib E0. destruct x3 as [h q2]. apply Ok_inj' in E0. injection E0 as <- <-.
      apply wf_consume in E6; [|discriminate|exact W1|lia]. apply wf_geti in E7; [|discriminate|exact E6|lia]. destruct E7 as [W2 V2]. split; [exact W2|].
      rewrite Z.shiftr_div_pow2 by lia. assert (2 ^ (16 - n) <= 2 ^ 14) by (apply Z.pow_le_mono_r; lia). change (2 ^ 1) with 2. change (2 ^ 14) with 16384 in *. change (2 ^ 13) with 8192. lia.
    - ib E0. apply Ok_inj' in E0. injection E0 as <- <-.
      assert (O : 0 <= orf_high (Z.land b 4095) < 12).
      { unfold orf_high in *. destruct (find _ _) eqn:F; [|discriminate]. apply find_some in F. destruct F as [F _]. apply zrange_In in F. lia. }
      change (2 ^ 13) with 8192. split; [|lia]. eapply wf_consume; [discriminate|exact W1| |exact E6]. lia. }
  destruct G as [W2 V2]. destruct (wf_geti MSB p2 n v p3 ltac:(discriminate) W2 ltac:(lia) E1) as [W3 V3]. split; [exact W3|].
  assert (K : 0 <= Z.lor (Z.shiftl high n) v < 2 ^ 31).
  { rewrite Z.shiftl_mul_pow2 by lia. assert (P : 0 < 2 ^ n <= 2 ^ 16) by (split; [apply Z.pow_pos_nonneg; lia|apply Z.pow_le_mono_r; lia]).
    change (2 ^ 16) with 65536 in P. change (2 ^ 13) with 8192 in V2.
    assert (0 <= high * 2 ^ n < 2 ^ 30) by (change (2 ^ 30) with 1073741824; nia). assert (0 <= v < 2 ^ 30) by (change (2 ^ 30) with 1073741824; lia).
    split; [apply Z.lor_nonneg; lia|]. apply Z.lt_trans with (2 ^ 30); [|reflexivity].
    destruct (Z.eq_dec (Z.lor (high * 2 ^ n) v) 0) as [->|Nz]; [reflexivity|].
    apply Z.log2_lt_pow2; [apply Z.le_neq; split; [apply Z.lor_nonneg; lia|congruence]|]. rewrite Z.log2_lor by lia.
    apply Z.max_lub_lt.
    - destruct (Z.eq_dec (high * 2 ^ n) 0) as [->|]; [cbn; lia|apply Z.log2_lt_pow2; lia].
    - destruct (Z.eq_dec v 0) as [->|]; [cbn; lia|apply Z.log2_lt_pow2; lia]. }
  rewrite P_Huff3.as_i32_small by exact K. exact K.
Qed.
Lemma ends_i32abs : forall (v : Z), ends (i32abs v). Proof. intros; unfold i32abs; et. Qed.
#[local] Hint Resolve ends_i32abs : ends.
Lemma ends_orf_pred : forall (lft up nw : Z), ends (orf_pred lft up nw). Proof. intros; unfold orf_pred; et. Qed.
#[local] Hint Resolve ends_orf_pred : ends.
Lemma ends_orf_pixel : forall (width row col s diff low lft nw : Z) (out : list Z), ends (orf_pixel width row col s diff low lft nw out). Proof. intros; unfold orf_pixel; et. Qed.
#[local] Hint Resolve ends_orf_pixel : ends.
Lemma ends_orf_step : forall w row col s st p out, 0 <= fst (fst (fst (fst st))) < 2 ^ 31 -> ends (orf_step w row col s st p out).
Proof.
  intros w row col s [[[[c0 c1] c2] l] n] p out C. cbn [fst] in C. unfold orf_step. apply ends_bind; [apply ends_orf_diff; exact C|]. intros [[[? ?] [[? ?] ?]] ?]. et.
Qed.
Lemma orf_step_inv : forall w row col s st p out a0 a1 a2 l n p' out', wf MSB p -> orf_step w row col s st p out = Ok (a0, a1, a2, l, n, p', out') ->
  wf MSB p' /\ 0 <= a0 < 2 ^ 31.
Proof.
  intros w row col s [[[[c0 c1] c2] l0] n0] p out a0 a1 a2 l n p' out' W H. unfold orf_step in H. ib H. destruct x as [[[d lo] [[b0 b1] b2]] p1].
  ib H. destruct x as [[l1 n1] o1]. apply Ok_inj' in H. injection H as <- _ _ _ _ <- _. eapply orf_diff_inv; [exact W|exact E].
Qed.
Lemma ends_orf_decompress : forall buf w h, bytes buf -> ends (orf_decompress buf w h).
Proof.
  intros buf w h B. unfold orf_decompress. apply ends_bind_ok; [et|]. intros src E. apply (bytes_slice_from _ _ _ B) in E.
  apply ends_bind; [|intros [[[[[? ?] ?] ?] ?] ?]; et].
  set (P := fun st : Z * Z * Z * Z * pump * list Z => let '(_, p, _) := st in wf MSB p).
  set (Q := fun st : Z * Z * Z * Z * Z * (Z * Z * Z * Z * Z) * pump * list Z =>
    let '(a, b, p, _) := st in 0 <= fst (fst (fst (fst a))) < 2 ^ 31 /\ 0 <= fst (fst (fst (fst b))) < 2 ^ 31 /\ wf MSB p).
  apply (ends_rfold_inv P).
  - cbn. apply wf_new; [discriminate|exact E].
  - intros row [[[[[l0 n0] l1] n1] p] out] W. cbn in W. apply ends_bind; [|intros [[[[[[[? ?] ?] ?] ?] [[[[? ?] ?] ?] ?]] ?] ?]; et].
    apply (ends_rfold_inv Q).
    + cbn. split; [lia|split; [lia|exact W]].
    + intros c [[[[[[[a0 a1] a2] al] an] [[[[b0 b1] b2] bl] bn]] q] o1] [A [Bb W1]]. cbn [fst] in *. cbv zeta.
      apply ends_bind_ok; [apply ends_orf_step; exact A|]. intros [[[[[[? ?] ?] ?] ?] ?] ?] E1. apply orf_step_inv in E1; [|exact W1].
      apply ends_bind; [apply ends_orf_step; exact Bb|]. intros [[[[[[? ?] ?] ?] ?] ?] ?]. et.
    + intros c [[[[[[[a0 a1] a2] al] an] [[[[b0 b1] b2] bl] bn]] q] o1] s' [A [Bb W1]] H. cbn [fst] in *. cbv zeta in H.
      ib H. destruct x as [[[[[[? ?] ?] ?] ?] ?] ?]. apply orf_step_inv in E0; [|exact W1]. destruct E0 as [W2 A2].
      ib H. destruct x as [[[[[[? ?] ?] ?] ?] ?] ?]. apply orf_step_inv in E0; [|exact W2]. destruct E0 as [W3 B3].
      apply Ok_inj' in H. subst s'. cbn. auto.
  - intros row [[[[[l0 n0] l1] n1] p] out] s' W H. cbn in W. ib H. destruct x as [[[[[[[? ?] ?] ?] ?] [[[[? ?] ?] ?] ?]] p1] ?]. apply Ok_inj' in H. subst s'. cbn.
    change (wf MSB p1). refine (proj2 (proj2 _)). 
    refine (rfold_inv _ Q _ _ _ _ _ E0).
    + intros c [[[[[[[a0 a1] a2] al] an] [[[[b0 b1] b2] bl] bn]] q] o1] s' _ [A [Bb W1]] H. cbn [fst] in *. cbv zeta in H.
      ib H. destruct x as [[[[[[? ?] ?] ?] ?] ?] ?]. apply orf_step_inv in E1; [|exact W1]. destruct E1 as [W2 A2].
      ib H. destruct x as [[[[[[? ?] ?] ?] ?] ?] ?]. apply orf_step_inv in E1; [|exact W2]. destruct E1 as [W3 B3].
      apply Ok_inj' in H. subst s'. cbn. auto.
    + cbn. split; [lia|split; [lia|exact W]].
Qed.
#[local] Hint Resolve ends_orf_decompress : ends.
Lemma ends_orf_wb : forall (buf : list Z) (tiff : ifd), ends (orf_wb buf tiff). Proof. intros; unfold orf_wb; et. Qed.
#[local] Hint Resolve ends_orf_wb : ends.
Lemma ends_orf_image : forall (l : loader) (buf : list Z) (tiff : ifd), bytes buf -> ends (orf_image l buf tiff). Proof. intros; unfold orf_image; et. Qed.
#[local] Hint Resolve ends_orf_image : ends.
Lemma ends_pana_peek : forall (p : pana) (num : Z), ends (pana_peek p num). Proof. intros; unfold pana_peek; et. Qed.
#[local] Hint Resolve ends_pana_peek : ends.
Lemma ends_pana_bits : forall (p : pana) (num : Z), ends (pana_bits p num). Proof. intros; unfold pana_bits; et. Qed.
#[local] Hint Resolve ends_pana_bits : ends.
Lemma ends_pana_next : forall (j sh pred : Z), ends (pana_next j sh pred). Proof. intros; unfold pana_next; et. Qed.
#[local] Hint Resolve ends_pana_next : ends.
Lemma ends_pana_pixel : forall (i : Z) (st : pana * Z * list Z * list Z * list Z), ends (pana_pixel i st). Proof. intros; destruct st as [[[[? ?] ?] ?] ?]; unfold pana_pixel; et. Qed.
#[local] Hint Resolve ends_pana_pixel : ends.
Lemma ends_pana_group : forall (out : list Z) (st : pana * Z * list Z), ends (pana_group out st). Proof. intros; destruct st as [[? ?] ?]; unfold pana_group; et. Qed.
#[local] Hint Resolve ends_pana_group : ends.
Lemma ends_pana_decompress : forall (buf : list Z) (width height : Z) (split : bool), ends (pana_decompress buf width height split). Proof. intros; unfold pana_decompress; et. Qed.
#[local] Hint Resolve ends_pana_decompress : ends.
Lemma ends_rw2_wb : forall (tiff : ifd), ends (rw2_wb tiff). Proof. intros; unfold rw2_wb; et. Qed.
#[local] Hint Resolve ends_rw2_wb : ends.
Lemma ends_rw2_image : forall (l : loader) (buf : list Z) (tiff : ifd), ends (rw2_image l buf tiff). Proof. intros; unfold rw2_image; et. Qed.
#[local] Hint Resolve ends_rw2_image : ends.
Lemma ends_arw_wb : forall (buf : list Z) (tiff : ifd), ends (arw_wb buf tiff). Proof. intros; unfold arw_wb; et. Qed.
#[local] Hint Resolve ends_arw_wb : ends.
Lemma ends_a100_wb : forall fuel buf pos, bytes buf -> 0 <= pos -> (Z.to_nat (zlen buf - pos) < fuel)%nat -> ends (a100_wb fuel buf pos).
Proof.
  induction fuel as [|n IH]; intros buf pos B P F; [lia|]. cbn [a100_wb]. destruct (pos + 20 <? zlen buf) eqn:E; [|et].
  apply ends_bind; [et|]. intros tag. apply ends_bind_ok; [et|]. intros len L. apply (ru32_range false _ _ _ B) in L.
  destruct (tag =? _); [et|]. apply IH; [exact B|lia|lia].
Qed.
Lemma ends_a100_image : forall buf tiff camera, bytes buf -> ends (a100_image buf tiff camera).
Proof.
  intros buf tiff camera B. unfold a100_image. destruct (find_first_ifd _ _); [|et]. do 5 (apply ends_bind; [et|]; intros ?).
  apply ends_bind_ok; [et|]. intros priv E. apply (bytes_slice_from _ _ _ B) in E. apply ends_bind; [apply ends_a100_wb; [exact E|lia|unfold zlen; lia]|]. et.
Qed.
#[local] Hint Resolve ends_a100_image : ends.
Lemma ends_srf_image : forall (buf : list Z) (tiff : ifd) (camera : camera), ends (srf_image buf tiff camera). Proof. intros; unfold srf_image; et. Qed.
#[local] Hint Resolve ends_srf_image : ends.
Lemma ends_arw_get_curve : forall (raw : ifd), ends (arw_get_curve raw). Proof. intros; unfold arw_get_curve; et. Qed.
#[local] Hint Resolve ends_arw_get_curve : ends.
Lemma ends_arw_image : forall (l : loader) (buf : list Z) (tiff : ifd), bytes buf -> ends (arw_image l buf tiff). Proof. intros; unfold arw_image; et. Qed.
#[local] Hint Resolve ends_arw_image : ends.
End Ends5.
#[global] Hint Resolve ends_is_mrw ends_mrw_block ends_mrw_image ends_is_x3f ends_x3f_entry_new ends_x3f_dir_new ends_x3f_file_new ends_x3f_new ends_x3f_image ends_crw_fill ends_crw_table ends_crw_leaf ends_crw_tables ends_crw_diff ends_crw_pixels ends_crw_high ends_crw_low ends_crw_lows ends_crw_decompress ends_cget_f32 ends_cget_wb ends_crw_wb1 ends_crw_wb ends_crw_image tree_table_ok pef_table_ok ends_iiq_zeros ends_iiq_len ends_iiq_pred ends_iiq_pixel ends_iiq_line ends_iiq_decompress ends_iiq_header ends_iiq_image ends_tree_table ends_pef_code ends_pef_smallest ends_pef_table ends_pair_diff ends_put_pair ends_pef_rows ends_pef_decompress ends_pef_blacks ends_pef_image ends_i32abs ends_orf_pred ends_orf_pixel ends_orf_decompress ends_orf_wb ends_orf_image ends_pana_peek ends_pana_bits ends_pana_next ends_pana_pixel ends_pana_group ends_pana_decompress ends_rw2_wb ends_rw2_image ends_arw_wb ends_a100_image ends_srf_image ends_arw_get_curve ends_arw_image : ends.
