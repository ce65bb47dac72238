(** Colours of small Canon pictures (C52). *)
From Coq Require Import String Ascii ZArith List Bool Reals Lia Lra.
From Flocq Require Import Core Relative BinarySingleNaN.
From Verif Require Import Base Num F32 Bytes Tiff Image Camera Cr2 Lookup Decoder Dec_Ljpeg Threads Spec_Bits Spec_Meta P_Base P_Bits P_F32 P_Lookup P_Ljpeg1 P_Sensor4 P_Shape7 P_Black.
Import ListNotations.
Local Open Scope Z_scope.

Lemma divided : forall w, 0 < w < 65536 -> f32_to (- 2 ^ 31) (2 ^ 31 - 1) (fdiv (flit 1048576 1) (f32_of w)) = 1048576 / w.
Proof.
  intros w Hw.
  assert (F1 : is_finite (flit 1048576 1) = true /\ B2R (flit 1048576 1) = IZR 1048576).
  { destruct (of_exact 1048576 ltac:(lia)) as [Fa [Va _]]. destruct (of_exact 1 ltac:(lia)) as [_ [Vb _]].
    assert (Q : (B2R (f32_of 1048576) / B2R (f32_of 1))%R = IZR 1048576) by (rewrite Va, Vb; unfold Rdiv; rewrite Rinv_1; apply Rmult_1_r).
    destruct (div_val (f32_of 1048576) (f32_of 1) Fa) as [F V]; [rewrite Vb; lra|rewrite Q, <- abs_IZR; apply IZR_le; lia|].
    split; [exact F|]. unfold flit, fdiv. rewrite V, Q. apply RN_id, gf_int. lia. }
  destruct F1 as [Fa Va]. destruct (of_exact w ltac:(lia)) as [Fb [Vb _]].
  assert (Rw : (1 <= IZR w)%R) by (apply IZR_le; lia).
  destruct (div_val (flit 1048576 1) (f32_of w) Fa) as [F V].
  - rewrite Vb. lra.
  - rewrite Va, Vb. rewrite Rabs_pos_eq by (apply Rle_mult_inv_pos; lra).
    apply Rmult_le_reg_r with (IZR w); [lra|]. unfold Rdiv. rewrite Rmult_assoc, Rinv_l, Rmult_1_r by lra. rewrite <- mult_IZR. apply IZR_le. change (2 ^ 64) with 18446744073709551616. lia.
  - unfold fdiv. rewrite to_val; rewrite ?V, ?Va, ?Vb, ?div_floor by lia; [reflexivity|exact F|].
    pose proof (Z.div_pos 1048576 w ltac:(lia) ltac:(lia)). pose proof (Z.div_le_upper_bound 1048576 w 1048576 ltac:(lia) ltac:(lia)). lia.
Qed.
Lemma whole : forall w, 0 <= w < 65536 -> f32_to (- 2 ^ 31) (2 ^ 31 - 1) (f32_of w) = w.
Proof.
  intros w Hw. destruct (of_exact w ltac:(lia)) as [F [V _]]. rewrite to_val; rewrite ?V, ?Ztrunc_IZR; [reflexivity|exact F|lia].
Qed.
Section Any.
Context {M : Mode}.
Lemma mul_ok : forall a b, -2147483648 <= a * b < 2147483648 -> i32mul a b = Ok (a * b).
Proof. intros a b H. unfold i32mul. apply arith_s_ok. exact H. Qed.
Lemma clamped : forall v, -2147483648 <= v < 2147483648 -> exists c, clampbits v 16 = Ok c /\ as_u16 c = clamp16 v.
Proof.
  intros v H. rewrite clampbits_spec by lia. eexists. split; [reflexivity|]. unfold as_u16, clamp16. change (2 ^ 16) with 65536.
  destruct (v <? 0) eqn:E1; [rewrite Z.mod_0_l by lia; lia|]. destruct (v <? 65536) eqn:E2; [rewrite Z.mod_small by lia; lia|]. change (-1 mod 65536) with 65535. lia.
Qed.
Lemma down : forall a, (a / 4096) = - ((- a + 4095) / 4096).
Proof. intros a. Z.div_mod_to_equations. lia. Qed.
Lemma pixel_ok : forall wr wg wb off y cb cr, 56 <= wr < 65536 -> 0 <= wg <= 27948 -> 56 <= wb < 65536 -> off = 0 \/ off = 512 -> sample y -> sample cb -> sample cr ->
  yuv_to_rgb (2 ^ 20 / wr) wg (2 ^ 20 / wb) off [y; cb; cr] = Ok (canon_rgb wr wg wb off (y, cb, cr)).
Proof.
  intros wr wg wb off y cb cr Hr Hg Hb Ho Hy Hcb Hcr. unfold sample in *. unfold yuv_to_rgb, canon_rgb.
  change (get [y; cb; cr] 0) with (Ok y). change (get [y; cb; cr] 1) with (Ok cb). change (get [y; cb; cr] 2) with (Ok cr). cbn [bind].
  assert (B : forall w, 56 <= w < 65536 -> 0 <= 2 ^ 20 / w <= 18724) by (intros w Hw; change (2 ^ 20) with 1048576; split; [apply Z.div_pos; lia|apply Z.lt_succ_r; apply Z.div_lt_upper_bound; lia]).
  pose proof (B wr Hr) as B1. pose proof (B wb Hb) as B2. clear B. set (c1 := 2 ^ 20 / wr) in *. set (c3 := 2 ^ 20 / wb) in *. clearbody c1 c3.
  rewrite i32sub_ok by lia. cbn [bind]. rewrite i32sub_ok by lia. cbn [bind]. rewrite i32sub_ok by lia. cbn [bind].
  assert (Y : -512 <= y - off <= 65535) by lia. set (Y' := y - off) in *. assert (CB : -16383 <= cb - 16383 <= 49152) by lia. set (b := cb - 16383) in *. assert (CR : -16383 <= cr - 16383 <= 49152) by lia. set (r := cr - 16383) in *.
  clearbody Y' b r. clear y cb cr Hy Hcb Hcr Hr Hb wr wb off Ho.
  assert (P : forall c v, 0 <= c <= 18724 -> -16895 <= v <= 114687 -> -2147483648 <= c * v < 2147483648) by (intros; nia).
  rewrite i32add_ok by lia. cbn [bind]. rewrite mul_ok by (apply P; lia). cbn [bind]. rewrite mul_ok by lia. cbn [bind].
  assert (S1 : as_i32 (Z.shiftl r 11) = 2048 * r) by (rewrite Z.shiftl_mul_pow2 by lia; change (2 ^ 11) with 2048; rewrite Z.mul_comm; apply as_i32_fits; lia).
  rewrite S1. rewrite i32sub_ok by lia. cbn [bind]. rewrite (Z.shiftr_div_pow2 _ 12) by lia. change (2 ^ 12) with 4096. rewrite down.
  replace (- (-778 * b - 2048 * r) + 4095) with (778 * b + 2048 * r + 4095) by lia. set (t := (778 * b + 2048 * r + 4095) / 4096).
  assert (T : -11303 <= t <= 33912) by (unfold t; Z.div_mod_to_equations; lia). clearbody t.
  assert (Q : -2147483648 <= wg * (Y' - t) < 2147483648) by nia.
  rewrite i32add_ok by lia. cbn [bind]. replace (Y' + - t) with (Y' - t) by lia. rewrite mul_ok by exact Q. cbn [bind].
  rewrite i32add_ok by lia. cbn [bind]. rewrite mul_ok by (apply P; lia). cbn [bind].
  rewrite !(Z.shiftr_div_pow2 _ 8) by lia. change (2 ^ 8) with 256.
  assert (D : forall v, -2147483648 <= v < 2147483648 -> -2147483648 <= v / 256 < 2147483648) by (intros; Z.div_mod_to_equations; lia).
  destruct (clamped (c1 * (Y' + r) / 256)) as [x1 [E1 V1]]; [apply D, P; lia|]. destruct (clamped (wg * (Y' - t) / 256)) as [x2 [E2 V2]]; [apply D, Q|]. destruct (clamped (c3 * (Y' + b) / 256)) as [x3 [E3 V3]]; [apply D, P; lia|].
  rewrite E1, E2, E3. cbn [bind]. rewrite V1, V2, V3. reflexivity.
Qed.
Lemma pixels_rgb : forall wr wg wb off pixels, 56 <= wr < 65536 -> 0 <= wg <= 27948 -> 56 <= wb < 65536 -> off = 0 \/ off = 512 -> samples (flat_map parts pixels) ->
  mapM (yuv_to_rgb (2 ^ 20 / wr) wg (2 ^ 20 / wb) off) (chunks 3 (flat_map parts pixels)) = Ok (map (canon_rgb wr wg wb off) pixels).
Proof.
  intros wr wg wb off pixels Hr Hg Hb Ho. induction pixels as [|[[y cb] cr] pixels IH]; intros S; [reflexivity|].
  cbn [flat_map parts app map] in *. rewrite P_Threads.chunks_cons by (lia || discriminate). cbn [firstn skipn mapM].
  rewrite pixel_ok; [|assumption..|exact (Forall_inv S)|exact (Forall_inv (Forall_inv_tail S))|exact (Forall_inv (Forall_inv_tail (Forall_inv_tail S)))].
  cbn [bind]. rewrite IH by (do 3 apply Forall_inv_tail in S; exact S). reflexivity.
Qed.
Theorem canon_colours : forall tiff cam levels wr wg wb pixels, find_entry tiff T_Cr2ColorData = Some levels ->
  let offset := if c_wb_offset cam =? 0 then 63 else c_wb_offset cam in
  get_force_u16 levels offset = Ok wr -> get_force_u16 levels (offset + 1) = Ok wg -> get_force_u16 levels (offset + 3) = Ok wb ->
  56 <= wr < 65536 -> 0 <= wg <= 27948 -> 56 <= wb < 65536 -> samples (flat_map parts pixels) ->
  convert_to_rgb tiff cam (flat_map parts pixels) = Ok (flat_map (canon_rgb wr wg wb (if find_hint cam "40d_yuv" then 512 else 0)) pixels).
Proof.
  intros tiff cam levels wr wg wb pixels El offset E1 E2 E3 Hr Hg Hb S. unfold convert_to_rgb, cr2_wb. rewrite El. cbv zeta.
  replace (if negb (c_wb_offset cam =? 0) then c_wb_offset cam else 63) with offset by (unfold offset; destruct (c_wb_offset cam =? 0); reflexivity).
  rewrite E1, E2, E3. cbn [bind e0 e1 e2]. rewrite !divided, whole by lia. change 1048576 with (2 ^ 20).
  rewrite pixels_rgb; [|assumption|assumption|assumption|destruct (find_hint cam "40d_yuv"); auto|assumption]. cbn [bind]. rewrite flat_map_concat_map. reflexivity.
Qed.
End Any.

(** A white balance level of 1 *)
Definition faint : Tiff.entry := mkentry T_Cr2ColorData 3 67 0 0 (repeat 0 126 ++ [1; 0; 0; 4; 0; 4; 0; 4]) false.
Lemma faint_red : forall tiff cam, find_entry tiff T_Cr2ColorData = Some faint -> c_wb_offset cam = 0 -> find_hint cam "40d_yuv" = false ->
  convert_to_rgb (M := true) tiff cam [65535; 16383; 65535] = Panic /\
  exists g b, convert_to_rgb (M := false) tiff cam [65535; 16383; 65535] = Ok [0; g; b].
Proof.
  intros tiff cam El Eo Eh. unfold convert_to_rgb, cr2_wb. rewrite El, Eo, Eh. cbv zeta. change (negb (0 =? 0)) with false. cbv iota.
  change (get_force_u16 faint 63) with (Ok 1). change (get_force_u16 faint (63 + 1)) with (Ok 1024). change (get_force_u16 faint (63 + 3)) with (Ok 1024). cbn [bind e0 e1 e2].
  rewrite !divided, whole by lia. split; [|do 2 eexists]; vm_compute; reflexivity.
Qed.
