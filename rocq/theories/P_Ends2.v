(** Proofs that loops end: lossless JPEG, Leaf, Fuji, Canon and Sony data. *)
From Coq Require Import String ZArith List Bool Lia ZifyBool ZifyNat.
From Verif Require Import Base Bytes Pumps ByteStream Threads Packed Huffman Lookup Ljpeg Mos Raf Cr2 Arw P_Base P_Tiff2 P_Ends1.
Import ListNotations.
Local Open Scope Z_scope.
Ltac Zify.zify_post_hook ::= Z.div_mod_to_equations.
Ltac ib H := let a := fresh "x" in let E := fresh "E" in apply bind_inv in H; destruct H as [a [E H]].
Section Ends3.
Context {M : Mode}.
Lemma bs_u8_pos : forall buf pos v pos', bs_u8 buf pos = Ok (v, pos') -> pos' = pos + 1 /\ 0 <= pos < zlen buf.
Proof. intros buf pos v pos' H. unfold bs_u8 in H. ib H. apply get_ok_inv in E. injection H as _ <-. intuition lia. Qed.
Lemma bs_u16_pos : forall e buf pos v pos', bs_u16 e buf pos = Ok (v, pos') -> pos' = pos + 2.
Proof. intros e buf pos v pos' H. unfold bs_u16 in H. ib H. injection H as _ <-. reflexivity. Qed.
Lemma bs_skip_pos : forall fuel buf pos pos', bs_skip fuel buf pos = Ok pos' -> pos < pos' /\ 0 <= pos.
Proof.
  induction fuel as [|n IH]; intros buf pos pos' H; [discriminate|]. cbn [bs_skip] in H. ib H. apply get_ok_inv in E. ib H.
  destruct x0; [injection H as <-; lia|]. destruct (zlen buf <=? pos + 1); [discriminate|]. apply IH in H. lia.
Qed.
Lemma next_marker_pos : forall buf pos b m pos', next_marker buf pos b = Ok (m, pos') -> pos < pos' <= zlen buf /\ 0 <= pos.
Proof.
  intros buf pos b m pos' H. unfold next_marker in H. destruct b; cbn [negb] in H.
  - ib H. apply bs_skip_pos in E. apply bs_u8_pos in H. lia.
  - ib H. destruct x as [b p1]. apply bs_u8_pos in E. destruct (negb (b =? 255)); [discriminate|]. ib H. destruct x as [mk p2]. apply bs_u8_pos in E0.
    destruct ((mk =? 0) || (mk =? 255)); [discriminate|]. injection H as _ <-. lia.
Qed.
Lemma ends_next_marker : forall buf pos b, 0 <= pos -> ends (next_marker buf pos b).
Proof. intros buf pos b H. unfold next_marker. destruct b; cbn [negb]; et. Qed.
#[local] Hint Resolve ends_next_marker : ends.
Lemma ends_parse_sof : forall s buf pos, ends (parse_sof s buf pos). Proof. intros; unfold parse_sof; et. Qed.
#[local] Hint Resolve ends_parse_sof : ends.
Lemma ends_parse_sos : forall s buf pos, ends (parse_sos s buf pos). Proof. intros; unfold parse_sos; et. Qed.
#[local] Hint Resolve ends_parse_sos : ends.
Lemma parse_sof_pos : forall s buf pos s' pos', parse_sof s buf pos = Ok (s', pos') -> pos <= pos'.
Proof.
  intros s buf pos s' pos' H. unfold parse_sof in H.
  ib H. destruct x as [hl p1]. apply bs_u16_pos in E. ib H. destruct x as [pr p2]. apply bs_u8_pos in E0.
  ib H. destruct x as [he p3]. apply bs_u16_pos in E1. ib H. destruct x as [wi p4]. apply bs_u16_pos in E2.
  ib H. destruct x as [cp p5]. apply bs_u8_pos in E3.
  destruct (16 <? pr); [discriminate|]. destruct ((4 <? cp) || (cp <? 1)); [discriminate|]. destruct (negb _); [discriminate|].
  ib H. destruct x as [cs p6]. injection H as _ <-.
  assert (p5 <= snd (cs, p6)); [|cbn in *; lia].
  refine (rfold_inv _ (fun st : list component * Z => p5 <= snd st) _ _ _ _ _ E4); [|cbn; lia].
  intros x [c1 q1] [c2 q2] _ K Hf. cbn [snd] in *. ib Hf. destruct x0 as [a1 q3]. apply bs_u8_pos in E5. ib Hf. destruct x0 as [a2 q4]. apply bs_u8_pos in E6.
  ib Hf. destruct x0 as [a3 q5]. apply bs_u8_pos in E7. injection Hf as _ <-. lia.
Qed.
Lemma parse_tables_turn_pos : forall buf n (z : list Z * Z * Z) bits acc pos,
  rfold (fun i '(bits, acc, pos) => '(v, pos) <- bs_u8 buf pos ;; bits <- upd bits (i + 1) v ;; Ok (bits, acc + v, pos)) n z = Ok (bits, acc, pos) ->
  snd z <= pos.
Proof.
  intros buf n z bits acc pos H. change (snd z <= snd (bits, acc, pos)).
  refine (rfold_inv _ (fun st : list Z * Z * Z => snd z <= snd st) _ _ _ _ _ H); [|lia].
  intros x [[b1 a1] q1] [[b2 a2] q2] _ K Hf. cbn [snd] in *. ib Hf. destruct x0 as [v q3]. apply bs_u8_pos in E. ib Hf. injection Hf as _ _ <-. lia.
Qed.
Lemma parse_tables_vals_pos : forall buf n (z : list Z * Z) vals pos,
  rfold (fun i '(vals, pos) => '(v, pos) <- bs_u8 buf pos ;; vals <- upd vals i v ;; Ok (vals, pos)) n z = Ok (vals, pos) -> snd z <= pos.
Proof.
  intros buf n z vals pos H. change (snd z <= snd (vals, pos)).
  refine (rfold_inv _ (fun st : list Z * Z => snd z <= snd st) _ _ _ _ _ H); [|lia].
  intros x [b1 q1] [b2 q2] _ K Hf. cbn [snd] in *. ib Hf. destruct x0 as [v q3]. apply bs_u8_pos in E. ib Hf. injection Hf as _ <-. lia.
Qed.
Lemma ends_parse_tables : forall fuel buf d len pos, (Z.to_nat (zlen buf - pos) < fuel)%nat -> ends (parse_tables fuel buf d len pos).
Proof.
  induction fuel as [|n IH]; intros buf d len pos H; [lia|]. cbn [parse_tables].
  destruct (len <=? 0); [et|]. apply ends_bind_ok; [et|]. intros [b p1] E1. apply bs_u8_pos in E1. cbv zeta.
  destruct (negb _); [et|]. destruct (3 <? _); [et|]. apply ends_bind; [et|]. intros bits0.
  apply ends_bind_ok; [et|]. intros [[bits acc] p2] E2. apply parse_tables_turn_pos in E2. cbn [snd] in E2.
  apply ends_bind; [et|]. intros bits1. apply ends_bind; [et|]. intros db. destruct (256 <? acc); [et|]. destruct (len <? _); [et|].
  apply ends_bind; [et|]. intros vals0. apply ends_bind_ok; [et|]. intros [vals p3] E3. apply parse_tables_vals_pos in E3. cbn [snd] in E3.
  apply ends_bind; [et|]. intros dv. apply ends_bind; [et|]. intros di. apply IH. unfold zlen in *. lia.
Qed.
Lemma parse_tables_pos : forall fuel buf d len pos d' pos', parse_tables fuel buf d len pos = Ok (d', pos') -> pos <= pos'.
Proof.
  induction fuel as [|n IH]; intros buf d len pos d' pos' H; [discriminate|]. cbn [parse_tables] in H.
  destruct (len <=? 0); [injection H as _ <-; lia|]. ib H. destruct x as [b p1]. apply bs_u8_pos in E. cbv zeta in H.
  destruct (negb _); [discriminate|]. destruct (3 <? _); [discriminate|]. ib H. ib H. destruct x0 as [[bits acc] p2]. apply parse_tables_turn_pos in E1. cbn [snd] in E1.
  ib H. ib H. destruct (256 <? acc); [discriminate|]. destruct (len <? _); [discriminate|]. ib H. ib H. destruct x3 as [vals p3].
  apply parse_tables_vals_pos in E5. cbn [snd] in E5. ib H. ib H. apply IH in H. lia.
Qed.
Lemma ends_parse_dht : forall d buf pos, ends (parse_dht d buf pos).
Proof.
  intros d buf pos. unfold parse_dht. apply ends_bind_ok; [et|]. intros [v p1] E. unfold bs_u16 in E. ib E. injection E as _ <-.
  apply ends_bind; [et|]. intros l. apply ends_parse_tables.
  assert (0 <= pos); [|unfold zlen; lia].
  unfold ru16 in E0. ib E0. apply slice_inv in E. lia.
Qed.
#[local] Hint Resolve ends_parse_dht : ends.
Lemma parse_dht_pos : forall d buf pos d' pos', parse_dht d buf pos = Ok (d', pos') -> pos <= pos'.
Proof.
  intros d buf pos d' pos' H. unfold parse_dht in H. ib H. destruct x as [v p1]. apply bs_u16_pos in E. ib H. apply parse_tables_pos in H. lia.
Qed.
Lemma ends_marker_loop : forall fuel buf s d pos, 0 <= pos -> (Z.to_nat (zlen buf - pos) < fuel)%nat -> ends (marker_loop fuel buf s d pos).
Proof.
  induction fuel as [|n IH]; intros buf s d pos P H; [lia|]. cbn [marker_loop].
  apply ends_bind_ok; [et|]. intros [m p1] E. apply next_marker_pos in E.
  destruct (m =? 195). { apply ends_bind_ok; [et|]. intros [s1 p2] E1. apply parse_sof_pos in E1. destruct (_ || _); [et|]. apply IH; lia. }
  destruct (m =? 196). { apply ends_bind_ok; [et|]. intros [d1 p2] E1. apply parse_dht_pos in E1. apply IH; lia. }
  destruct (m =? 218). { et. }
  destruct (m =? 217); [et|]. destruct (m =? 219); [et|]. apply IH; lia.
Qed.
Lemma ends_leaf_offsets : forall fuel buf pos offs, 0 <= pos -> (Z.to_nat (zlen buf - pos) < fuel)%nat -> ends (leaf_offsets fuel buf pos offs).
Proof.
  induction fuel as [|n IH]; intros buf pos offs P H; [lia|]. cbn [leaf_offsets].
  pose proof (ends_next_marker buf pos true P) as K.
  destruct (next_marker buf pos true) as [[m p1]| | |] eqn:E; [|et|et|contradiction K; reflexivity]. apply next_marker_pos in E.
  destruct (m =? 217); [et|]. apply IH; lia.
Qed.
(** A decompressor made by the code *)
Definition lj_ok (lj : ljpeg) : Prop := Forall tab_ok (lj_dhts lj).
Lemma ends_ljpeg_new_full : forall src b c, ends (ljpeg_new_full src b c).
Proof.
  intros src b c. unfold ljpeg_new_full. apply ends_bind_ok; [apply ends_next_marker; lia|]. intros [m p] E. apply next_marker_pos in E.
  destruct (negb _); [et|]. apply ends_bind; [apply ends_marker_loop; unfold zlen in *; lia|]. intros a. et.
Qed.
#[local] Hint Resolve ends_ljpeg_new_full : ends.
Lemma ends_ljpeg_new : forall src, ends (ljpeg_new src). Proof. intros; unfold ljpeg_new; et. Qed.
#[local] Hint Resolve ends_ljpeg_new : ends.
Lemma ljpeg_new_full_ok : forall src b c lj, ljpeg_new_full src b c = Ok lj -> lj_ok lj.
Proof.
  intros src b c lj H. unfold ljpeg_new_full in H. ib H. destruct x as [m p]. destruct (negb _); [discriminate|]. ib H.
  destruct x as [[[[s d] pr] pt] p2]. ib H. ib H. injection H as <-. unfold lj_ok. cbn [lj_dhts].
  apply mapM_Ok_Forall2 in E1. apply Forall_forall. intros t I. destruct (In_nth_error _ _ I) as [k K].
  clear - E1 I. induction E1 as [|i u is us Hf _ IH]; [destruct I|]. destruct I as [<- | I]; [|exact (IH I)].
  ib Hf. destruct x; [|injection Hf as <-; reflexivity]. ib Hf. ib Hf. eapply huff_new_ok; exact Hf.
Qed.
Lemma ljpeg_new_ok : forall src lj, ljpeg_new src = Ok lj -> lj_ok lj.
Proof. intros src lj H. eapply ljpeg_new_full_ok; exact H. Qed.
#[local] Hint Resolve ljpeg_new_full_ok ljpeg_new_ok : ends.
Lemma lj_table_ok : forall lj i t, lj_ok lj -> lj_table lj i = Ok t -> tab_ok t.
Proof.
  intros lj i t K H. unfold lj_table in H. ib H. apply get_ok_inv in H. destruct H as [_ H]. apply nth_error_In in H.
  exact (proj1 (Forall_forall _ _) K t H).
Qed.
#[local] Hint Resolve lj_table_ok : ends.
Lemma ends_lj_table : forall lj i, ends (lj_table lj i). Proof. intros; unfold lj_table; et. Qed.
#[local] Hint Resolve ends_lj_table : ends.
Lemma ends_base_prediction : forall lj, ends (base_prediction lj). Proof. intros; unfold base_prediction; et. Qed.
#[local] Hint Resolve ends_base_prediction : ends.
Lemma ends_diffs : forall k ts p, Forall tab_ok ts -> ends (diffs k ts p).
Proof. intros k ts p H. revert p. induction H as [|t ts Ht _ IH]; intros p; cbn [diffs]; et. Qed.
#[local] Hint Resolve ends_diffs : ends.
Lemma ends_first_pixel : forall ts b o x p, Forall tab_ok ts -> ends (first_pixel ts b o x p).
Proof. intros ts b o x p H. revert o x p. induction H as [|t ts Ht _ IH]; intros o x p; cbn [first_pixel]; et. Qed.
#[local] Hint Resolve ends_first_pixel : ends.
Lemma ends_next_pixel : forall ts o a b p, Forall tab_ok ts -> ends (next_pixel ts o a b p).
Proof. intros ts o a b p H. unfold next_pixel. et. Qed.
#[local] Hint Resolve ends_next_pixel : ends.
Lemma lj_tables_ok : forall lj n ts, lj_ok lj -> mapM (lj_table lj) n = Ok ts -> Forall tab_ok ts.
Proof.
  intros lj n ts K H. apply mapM_Ok_Forall2 in H. induction H as [|i t is ts Hf _ IH]; constructor; [|exact IH]. eapply lj_table_ok; eassumption.
Qed.
Lemma ends_decode_components : forall n lj o x sw w h, lj_ok lj -> ends (decode_components n lj o x sw w h).
Proof.
  intros n lj o x sw w h K. unfold decode_components. cbv zeta. destruct (_ || _); [et|]. apply ends_bind_ok; [et|]. intros ts E. apply lj_tables_ok in E; [|exact K]. et.
Qed.
#[local] Hint Resolve ends_decode_components : ends.
Lemma ends_running : forall n t y p, tab_ok t -> ends (running n t y p).
Proof. intros n t y p H. revert y p. induction n as [|n IH]; intros y p; cbn [running]; et. Qed.
#[local] Hint Resolve ends_running : ends.
Lemma ends_set_yuv_420 : forall o r c w y1 y2 y3 y4 cb cr, ends (set_yuv_420 o r c w y1 y2 y3 y4 cb cr). Proof. intros; unfold set_yuv_420; et. Qed.
#[local] Hint Resolve ends_set_yuv_420 : ends.
Lemma ends_set_yuv_422 : forall o r c w y1 y2 cb cr, ends (set_yuv_422 o r c w y1 y2 cb cr). Proof. intros; unfold set_yuv_422; et. Qed.
#[local] Hint Resolve ends_set_yuv_422 : ends.
Lemma ends_block_420 : forall t1 t2 t3 o r c w a b d p, tab_ok t1 -> tab_ok t2 -> tab_ok t3 -> ends (block_420 t1 t2 t3 o r c w a b d p).
Proof. intros; unfold block_420; et. Qed.
#[local] Hint Resolve ends_block_420 : ends.
Lemma ends_block_422 : forall t1 t2 t3 o r c w a b d p, tab_ok t1 -> tab_ok t2 -> tab_ok t3 -> ends (block_422 t1 t2 t3 o r c w a b d p).
Proof. intros; unfold block_422; et. Qed.
#[local] Hint Resolve ends_block_422 : ends.
Lemma ends_decode_ljpeg_420 : forall lj o w h, lj_ok lj -> ends (decode_ljpeg_420 lj o w h). Proof. intros; unfold decode_ljpeg_420; et. Qed.
#[local] Hint Resolve ends_decode_ljpeg_420 : ends.
Lemma ends_decode_ljpeg_422 : forall lj o w h, lj_ok lj -> ends (decode_ljpeg_422 lj o w h). Proof. intros; unfold decode_ljpeg_422; et. Qed.
#[local] Hint Resolve ends_decode_ljpeg_422 : ends.
Lemma ends_hasselblad_pair : forall t o st, tab_ok t -> ends (hasselblad_pair t o st). Proof. intros t o [[p1 p2] p] H; unfold hasselblad_pair; et. Qed.
#[local] Hint Resolve ends_hasselblad_pair : ends.
Lemma ends_map_state : forall A S (f : list A -> S -> res (list A * S)) cs s, (forall c s, ends (f c s)) -> ends (map_state f cs s).
Proof. intros A S f cs s H. revert s. induction cs as [|c t IH]; intros s; cbn [map_state]; et. Qed.
Lemma ends_decode_hasselblad : forall lj o w, lj_ok lj -> ends (decode_hasselblad lj o w).
Proof.
  intros lj o w H. unfold decode_hasselblad. apply ends_bind_ok; [et|]. intros t E. apply lj_table_ok in E; [|exact H]. destruct (w =? 0); [et|].
  apply ends_bind; [|intros [? ?]; et]. apply ends_map_state. intros c s. apply ends_bind; [|intros [? [[? ?] ?]]; et]. apply ends_map_state. intros; et.
Qed.
#[local] Hint Resolve ends_decode_hasselblad : ends.
Lemma ends_ljpeg_decode : forall lj o x sw w h, lj_ok lj -> ends (ljpeg_decode lj o x sw w h). Proof. intros; unfold ljpeg_decode; et. Qed.
#[local] Hint Resolve ends_ljpeg_decode : ends.
Lemma ends_decode_leaf_strip : forall src o w h t1 t2 b, tab_ok t1 -> tab_ok t2 -> ends (decode_leaf_strip src o w h t1 t2 b).
Proof.
  intros src o w h t1 t2 b H1 H2. unfold decode_leaf_strip. assert (Forall tab_ok [t1; t2]) by (repeat constructor; assumption). et.
Qed.
#[local] Hint Resolve ends_decode_leaf_strip : ends.
Lemma ends_unwrap : forall A (r : res A), ends r -> ends (unwrap r).
Proof. intros A [?|?| |] H; cbn; et. Qed.
#[local] Hint Resolve ends_unwrap : ends.
Lemma ends_decode_leaf : forall lj w h, lj_ok lj -> ends (decode_leaf lj w h).
Proof. intros lj w h H. unfold decode_leaf. apply ends_bind; [apply ends_leaf_offsets; unfold zlen; lia|]. intros; et. Qed.
#[local] Hint Resolve ends_decode_leaf : ends.
Lemma ends_copy_at : forall (out : list Z) (a b : Z) (line : list Z), ends (copy_at out a b line). Proof. intros; unfold copy_at; et. Qed.
#[local] Hint Resolve ends_copy_at : ends.
Lemma ends_mos_interlace : forall (ljpegout : list Z) (width height : Z), ends (mos_interlace ljpegout width height). Proof. intros; unfold mos_interlace; et. Qed.
#[local] Hint Resolve ends_mos_interlace : ends.
Lemma ends_rotate_alt : forall (src : list Z) (width x y cropwidth cropheight : Z), ends (rotate_alt src width x y cropwidth cropheight). Proof. intros; unfold rotate_alt; et. Qed.
#[local] Hint Resolve ends_rotate_alt : ends.
Lemma ends_rotate_normal : forall (src : list Z) (width x y cropwidth cropheight : Z), ends (rotate_normal src width x y cropwidth cropheight). Proof. intros; unfold rotate_normal; et. Qed.
#[local] Hint Resolve ends_rotate_normal : ends.
Lemma ends_rotate_image : forall (src : list Z) (alt : bool) (crops : Z * Z * Z * Z) (width height : Z), ends (rotate_image src alt crops width height). Proof. intros; unfold rotate_image; et. Qed.
#[local] Hint Resolve ends_rotate_image : ends.
Lemma ends_stripe_pair : forall (ljpegout : list Z) (ljpegwidth width fieldstart row : Z) (col : Z) (st : Z * list Z), ends (stripe_pair ljpegout ljpegwidth width fieldstart row col st). Proof. intros; destruct st; unfold stripe_pair; et. Qed.
#[local] Hint Resolve ends_stripe_pair : ends.
Lemma ends_stripes_v2 : forall (ljpegout : list Z) (ljpegwidth width height : Z) (fieldwidths : list Z), ends (stripes_v2 ljpegout ljpegwidth width height fieldwidths). Proof. intros; unfold stripes_v2; et. Qed.
#[local] Hint Resolve ends_stripes_v2 : ends.
Lemma ends_stripe_line : forall (ljpegout : list Z) (width fieldstart fieldpos fieldwidth row : Z) (out : list Z), ends (stripe_line ljpegout width fieldstart fieldpos fieldwidth row out). Proof. intros; unfold stripe_line; et. Qed.
#[local] Hint Resolve ends_stripe_line : ends.
Lemma ends_stripes_v1 : forall (ljpegout : list Z) (width height sh cpp : Z) (fieldwidths : list Z), ends (stripes_v1 ljpegout width height sh cpp fieldwidths). Proof. intros; unfold stripes_v1; et. Qed.
#[local] Hint Resolve ends_stripes_v1 : ends.
Lemma ends_linearize : forall (tbl : ltable) (image : list Z) (random : Z), ends (linearize tbl image random). Proof. intros tbl image. induction image as [|v t IH]; intros r; cbn [linearize]; et. Qed.
#[local] Hint Resolve ends_linearize : ends.
Lemma ends_yuv_to_rgb : forall (c1 c2 c3 yoffset : Z) (pix : list Z), ends (yuv_to_rgb c1 c2 c3 yoffset pix). Proof. intros; unfold yuv_to_rgb; et. Qed.
#[local] Hint Resolve ends_yuv_to_rgb : ends.
Lemma ends_pad_start : forall (key : Z) (pad : list Z), ends (pad_start key pad). Proof. intros; unfold pad_start; et. Qed.
#[local] Hint Resolve ends_pad_start : ends.
Lemma ends_sony_pad : forall (key : Z), ends (sony_pad key). Proof. intros; unfold sony_pad; et. Qed.
#[local] Hint Resolve ends_sony_pad : ends.
Lemma ends_decrypt_word : forall (buf : list Z) (offset i : Z) (st : list Z * list Z), ends (decrypt_word buf offset i st). Proof. intros; destruct st; unfold decrypt_word; et. Qed.
#[local] Hint Resolve ends_decrypt_word : ends.
Lemma ends_sony_decrypt : forall (buf : list Z) (offset length key : Z), ends (sony_decrypt buf offset length key). Proof. intros; unfold sony_decrypt; et. Qed.
#[local] Hint Resolve ends_sony_decrypt : ends.
Lemma ends_arw1_len : forall (p : pump), ends (arw1_len p). Proof. intros; unfold arw1_len; et. Qed.
#[local] Hint Resolve ends_arw1_len : ends.
Lemma ends_arw1_sum : forall (len diff sum : Z), ends (arw1_sum len diff sum). Proof. intros; unfold arw1_sum; et. Qed.
#[local] Hint Resolve ends_arw1_sum : ends.
(** [row] goes through the even rows, then, if the height is even, through the odd ones. *)
Definition turns (height row : Z) : Z :=
  (if Z.even row && Z.even height then (height - row) / 2 + height / 2 + 2 else (height - row) / 2 + 2).
Lemma turns_step : forall height row, 0 <= height -> 0 <= row -> row <= height -> Z.even row || Z.even height = true ->
  turns height ((if row =? height then 1 else row) + 2) < turns height row /\ 0 <= (if row =? height then 1 else row) + 2 /\
  Z.even ((if row =? height then 1 else row) + 2) || Z.even height = true.
Proof.
  intros h r Hh Hr L D. unfold turns. destruct (r =? h) eqn:Ee.
  - assert (r = h) by lia. subst r. change (Z.even (1 + 2)) with false. destruct (Z.even h) eqn:E; [|discriminate]. cbn [andb orb]; rewrite ?Zeven_mod in *; lia.
  - rewrite Z.even_add. change (Z.even 2) with true. destruct (Z.even r) eqn:E, (Z.even h) eqn:E2; cbn [Bool.eqb andb orb]; try discriminate; rewrite ?Zeven_mod in *; lia.
Qed.
Lemma ends_arw1_column : forall fuel w h c r p s o, 0 <= h -> 0 <= r -> Z.even r || Z.even h = true -> (Z.to_nat (turns h r) < fuel)%nat -> r <= h + 2 -> ends (arw1_column fuel w h c r p s o).
Proof.
  induction fuel as [|n IH]; intros w h c r p s o Hh Hr D H L; [lia|]. cbn [arw1_column]. destruct (r <=? h) eqn:E; [|et].
  cbv zeta. apply ends_bind; [et|]. intros [len p1]. apply ends_bind; [et|]. intros [df p2]. apply ends_bind; [et|]. intros s1. apply ends_bind; [et|]. intros o1.
  destruct (turns_step h r Hh Hr ltac:(lia) D) as [T [G D2]]. 
  destruct (Z.eq_dec h 0) as [->|N].
  { (* a column of no rows: only the two turns over *) destruct n as [|n]; [unfold turns in H; cbn in H; assert (r = 0) by lia; subst r; cbn in H; lia|].
    cbn [arw1_column]. destruct (r =? 0) eqn:Er; [|lia]. cbn. et. }
  apply IH; [lia|lia|exact D2| |]. 2: destruct (r =? h) eqn:Ee; lia.
  assert (1 <= turns h r). { unfold turns. destruct (_ && _); lia. } lia.
Qed.
Lemma ends_decode_arw1 : forall buf w h, ends (decode_arw1 buf w h).
Proof.
  intros buf w h. unfold decode_arw1. apply ends_bind; [|intros [[? ?] ?]; et]. apply ends_rfold. intros x [[p s] o]. cbv zeta.
  destruct (Z_lt_le_dec h 0) as [L|L]. { cbn [arw1_column]. destruct (0 <=? h) eqn:E; [lia|et]. }
  apply ends_arw1_column; [lia|lia|reflexivity| |lia]. unfold turns. cbn [Z.even andb]. destruct (Z.even h); lia.
Qed.
#[local] Hint Resolve ends_decode_arw1 : ends.
Lemma ends_arw2_value : forall (i imax imin max min delta_shift : Z) (p : pump), ends (arw2_value i imax imin max min delta_shift p). Proof. intros; unfold arw2_value; et. Qed.
#[local] Hint Resolve ends_arw2_value : ends.
Lemma ends_arw2_half : forall (curve : ltable) (j : Z) (st : pump * Z * list Z), ends (arw2_half curve j st). Proof. intros; destruct st as [[? ?] ?]; unfold arw2_half; et. Qed.
#[local] Hint Resolve ends_arw2_half : ends.
Lemma ends_arw2_line : forall (curve : ltable) (p : pump) (random : Z) (line : list Z), ends (arw2_line curve p random line). Proof. intros; unfold arw2_line; et. Qed.
#[local] Hint Resolve ends_arw2_line : ends.
Lemma ends_decode_arw2 : forall (buf : list Z) (width height : Z) (curve : ltable), ends (decode_arw2 buf width height curve). Proof. intros; unfold decode_arw2; et. Qed.
#[local] Hint Resolve ends_decode_arw2 : ends.
Lemma ends_curve_fill : forall (points : list Z), ends (curve_fill points). Proof. intros; unfold curve_fill; et. Qed.
#[local] Hint Resolve ends_curve_fill : ends.
Lemma ends_arw_curve : forall (entries : list Z), ends (arw_curve entries). Proof. intros; unfold arw_curve; et. Qed.
#[local] Hint Resolve ends_arw_curve : ends.
End Ends3.
#[global] Hint Resolve ends_next_marker ends_parse_sof ends_parse_sos ends_parse_dht ends_ljpeg_new_full ends_ljpeg_new ljpeg_new_full_ok ljpeg_new_ok lj_table_ok ends_lj_table ends_base_prediction ends_diffs ends_first_pixel ends_next_pixel ends_decode_components ends_running ends_set_yuv_420 ends_set_yuv_422 ends_block_420 ends_block_422 ends_decode_ljpeg_420 ends_decode_ljpeg_422 ends_hasselblad_pair ends_decode_hasselblad ends_ljpeg_decode ends_decode_leaf_strip ends_unwrap ends_decode_leaf ends_copy_at ends_mos_interlace ends_rotate_alt ends_rotate_normal ends_rotate_image ends_stripe_pair ends_stripes_v2 ends_stripe_line ends_stripes_v1 ends_linearize ends_yuv_to_rgb ends_pad_start ends_sony_pad ends_decrypt_word ends_sony_decrypt ends_arw1_len ends_arw1_sum ends_decode_arw1 ends_arw2_value ends_arw2_half ends_arw2_line ends_decode_arw2 ends_curve_fill ends_arw_curve : ends.
