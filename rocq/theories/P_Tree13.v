(** Whole files with nested directories (C62): Hasselblad, Epson, Kodak. *)
From Coq Require Import String Ascii ZArith List Bool Reals SpecFloat Lia Lra.
From Flocq Require Import Core BinarySingleNaN.
From Verif Require Import Base Num F32 Bytes Pumps Lookup Ljpeg Packed Tiff Transform Image Camera Clients Decoder Dec_Simple Dispatch.
From Verif Require Import Spec_Bits Spec_Image Spec_Pump Spec_Stream Spec_Packed Spec_Tiff Spec_Camera Spec_Known Spec_Huffman Spec_Ljpeg Spec_Curve Spec_Dcr Spec_Nikon Spec_Meta Spec_File Spec_Dng Spec_Tree Spec_TreeMore.
From Verif Require Import P_Base P_Bits P_Pumps P_F32 P_Tiff3 P_Tiff5 P_Packed2 P_Packed3 P_Packed4 P_Packed5 P_Meta1 P_Meta2 P_File1 P_File2 P_File3 P_File4 P_Dng1 P_Tree1 P_Tree2 P_Tree3.
From Verif Require Props_Packed Props_Ljpeg2 Props_Pred4.
Import ListNotations.
Local Open Scope Z_scope.

(** ** Numbers *)
Lemma be_two : forall vs k, bytes vs -> 0 <= k -> k + 2 <= Z.of_nat (length vs) -> BEu16 vs k = Ok (two_bytes vs k) /\ 0 <= two_bytes vs k < 2 ^ 16.
Proof.
  intros vs k Hb H0 H1. rewrite BEu16_spec by assumption.
  assert (E : sub_list vs k 2 = [nth (Z.to_nat k) vs 0; nth (Z.to_nat (k + 1)) vs 0]).
  { unfold sub_list. replace (Z.to_nat (k + 1)) with (S (Z.to_nat k)) by lia. assert (Q : (Z.to_nat k + 2 <= length vs)%nat) by lia. revert Q. generalize (Z.to_nat k). clear. intros n. revert vs.
    induction n as [|n IH]; intros [|a [|b vs]] H; cbn in H; try lia; [reflexivity|]. cbn [skipn nth]. apply (IH (b :: vs)). cbn. lia. }
  rewrite E. assert (B : forall i, byte (nth i vs 0)).
  { intros i. destruct (Nat.lt_ge_cases i (length vs)) as [L|L]; [exact (proj1 (Forall_forall _ _) Hb _ (nth_In _ _ L))|rewrite nth_overflow by exact L; unfold byte; lia]. }
  pose proof (B (Z.to_nat k)) as B1. pose proof (B (Z.to_nat (k + 1))) as B2. unfold byte in *. unfold two_bytes. split; [|lia]. f_equal. cbn [big_endian_value length]. change (Z.of_nat 1) with 1. change (Z.of_nat 0) with 0. lia.
Qed.
Lemma near_1 : nearest (flit 1 1) 1.
Proof.
  destruct (of_exact 1 ltac:(lia)) as [Fa [Va _]].
  assert (Q : (B2R (f32_of 1) / B2R (f32_of 1))%R = IZR 1) by (rewrite Va; field).
  destruct (div_val (f32_of 1) (f32_of 1) Fa) as [F V]; [rewrite Va; apply not_0_IZR; lia|rewrite Q, <- abs_IZR; apply IZR_le; lia|].
  apply rn_near; [exact F|]. unfold flit, fdiv. rewrite V, Q. reflexivity.
Qed.
Lemma flit_int : forall z, 0 <= z <= 2 ^ 24 -> is_finite (flit z 1) = true /\ B2R (flit z 1) = IZR z.
Proof.
  intros z Hz. destruct (of_exact z ltac:(lia)) as [Fa [Va _]]. destruct (of_exact 1 ltac:(lia)) as [_ [Vb _]].
  assert (Q : (B2R (f32_of z) / B2R (f32_of 1))%R = IZR z) by (rewrite Va, Vb; field).
  destruct (div_val (f32_of z) (f32_of 1) Fa) as [F V]; [rewrite Vb; apply not_0_IZR; lia|rewrite Q, <- abs_IZR; apply IZR_le; lia|].
  split; [exact F|]. unfold flit, fdiv. rewrite V, Q. apply RN_id, gf_int. lia.
Qed.
Lemma divided_near : forall v, 0 <= v < 2 ^ 16 -> v <> 0 -> nearest (fdiv (flit 2048 1) (f32_of v)) (2048 / IZR v).
Proof.
  intros v Hv Hz. destruct (flit_int 2048 ltac:(lia)) as [Fa Va]. destruct (of_exact v ltac:(lia)) as [_ [Vb _]].
  destruct (ratio_bounds 2048 v ltac:(lia) ltac:(lia) ltac:(lia) ltac:(lia)) as [_ R2].
  destruct (div_val (flit 2048 1) (f32_of v) Fa) as [F V]; [rewrite Vb; apply not_0_IZR; lia|rewrite Va, Vb; eapply Rle_trans; [exact R2|apply IZR_le; lia]|].
  apply rn_near; [exact F|]. unfold fdiv. rewrite V, Va, Vb. reflexivity.
Qed.

Lemma grow : forall x e A B : R, (Rabs (x - 1) <= A)%R -> (Rabs e <= B)%R -> (Rabs (x * (1 + e) - 1) <= A + B + A * B)%R.
Proof.
  intros x e A B H1 H2. replace (x * (1 + e) - 1)%R with ((x - 1) + e + (x - 1) * e)%R by ring. eapply Rle_trans; [apply Rabs_triang|]. apply Rplus_le_compat.
  - eapply Rle_trans; [apply Rabs_triang|]. lra.
  - rewrite Rabs_mult. apply Rmult_le_compat; try apply Rabs_pos; assumption.
Qed.
Lemma factor_close : forall v k n x, 0 <= v < 2 ^ 16 -> 1 <= k <= 512 -> 1000 <= n <= 2000 -> is_finite x = true ->
  (Rabs (B2R x / (IZR n / 1000) - 1) <= 95 / 100 / 16777216)%R ->
  close (fdiv (fmul (fmul (f32_of v) (flit k 1)) x) (flit 65536 1)) (IZR v * IZR k * (IZR n / 1000) / 65536).
Proof.
  intros v k n x Hv Hk Hn Fx Hx. destruct (of_exact v ltac:(lia)) as [Fv [Vv _]]. destruct (flit_int k ltac:(lia)) as [Fk Vk]. destruct (flit_int 65536 ltac:(lia)) as [F6 V6].
  set (q := (IZR n / 1000)%R) in *. assert (Pn : (1000 <= IZR n <= 2000)%R) by (split; apply IZR_le; lia). assert (Hq : (1 <= q <= 2)%R) by (unfold q; lra).
  assert (Pv : (0 <= IZR v <= 65536)%R) by (split; apply IZR_le; lia). assert (Pk : (1 <= IZR k <= 512)%R) by (split; apply IZR_le; lia).
  assert (exists e, (Rabs e <= 95 / 100 / 16777216)%R /\ B2R x = (q * (1 + e))%R) as (e2 & E2 & V2).
  { exists (B2R x / q - 1)%R. split; [exact Hx|]. field. lra. }
  assert (E2' := Rabs_le_inv _ _ E2). assert (Bx : (0 <= B2R x <= 3)%R) by (rewrite V2; nra).
  assert (T : (IZR (2 ^ 64) = 18446744073709551616)%R) by reflexivity.
  destruct (mul_val (f32_of v) (flit k 1) Fv Fk) as [G1 W1]. { rewrite Vv, Vk, T, Rabs_pos_eq by nra. nra. }
  rewrite Vv, Vk in W1. unfold close. change (IZR (2 ^ 22)) with 4194304%R.
  destruct (Z.eq_dec v 0) as [->|Nv].
  - replace (0 * IZR k * q / 65536)%R with 0%R by (unfold Rdiv; ring). rewrite Rmult_0_l, RN_0 in W1.
    destruct (mul_val _ x G1 Fx) as [G2 W2]. { rewrite W1, Rmult_0_l, Rabs_R0, T. lra. } rewrite W1, Rmult_0_l, RN_0 in W2.
    destruct (div_val _ (flit 65536 1) G2) as [G3 W3]. { rewrite V6. lra. } { rewrite W2, T. unfold Rdiv. rewrite Rmult_0_l, Rabs_R0. lra. }
    rewrite W2 in W3. unfold Rdiv in W3. rewrite Rmult_0_l, RN_0 in W3. split; [exact G3|]. unfold fdiv, fmul. rewrite W3, Rminus_0_r, Rabs_R0. lra.
  - assert (Qv : (1 <= IZR v)%R) by (apply IZR_le; lia). assert (Pp : (1 <= IZR v * IZR k <= 65536 * 512)%R) by nra. set (p := (IZR v * IZR k)%R) in *.
    assert (S40 : (IZR 1 / IZR (2 ^ 40) <= / 2000000)%R). { change (IZR (2 ^ 40)) with 1099511627776%R. lra. }
    destruct (rn_rel p) as (e1 & E1 & R1). { rewrite Rabs_pos_eq by lra. lra. } rewrite R1 in W1. change (IZR (2 ^ 24)) with 16777216%R in E1. assert (E1' := Rabs_le_inv _ _ E1).
    assert (B1 : (1 / 2 <= p * (1 + e1) <= 65536 * 1024)%R) by nra. assert (B2 : (1 / 2 <= B2R x)%R) by (rewrite V2; nra).
    assert (B3 : (1 / 4 <= p * (1 + e1) * B2R x <= 65536 * 4096)%R) by nra.
    destruct (mul_val _ x G1 Fx) as [G2 W2]. { rewrite W1, T, Rabs_pos_eq by lra. lra. } rewrite W1 in W2.
    destruct (rn_rel (p * (1 + e1) * B2R x)) as (e3 & E3 & R3). { rewrite Rabs_pos_eq by lra. lra. } rewrite R3 in W2. change (IZR (2 ^ 24)) with 16777216%R in E3. assert (E3' := Rabs_le_inv _ _ E3).
    set (y := (p * (1 + e1) * B2R x)%R) in *. assert (B4 : (1 / 8 <= y * (1 + e3) <= 65536 * 8192)%R) by nra.
    destruct (div_val _ (flit 65536 1) G2) as [G3 W3]. { rewrite V6. lra. } { rewrite W2, V6, T, Rabs_pos_eq by lra. lra. }
    rewrite W2, V6 in W3. destruct (rn_rel (y * (1 + e3) / 65536)) as (e4 & E4 & R4). { rewrite Rabs_pos_eq by lra. lra. } rewrite R4 in W3. change (IZR (2 ^ 24)) with 16777216%R in E4.
    split; [exact G3|]. unfold fdiv, fmul. rewrite W3. unfold y. rewrite V2.
    replace (p * (1 + e1) * (q * (1 + e2)) * (1 + e3) / 65536 * (1 + e4) - p * q / 65536)%R with (p * q / 65536 * (1 * (1 + e1) * (1 + e2) * (1 + e3) * (1 + e4) - 1))%R by (field).
    rewrite Rabs_mult. change (Rabs (p * q / 65536) / 4194304)%R with (Rabs (p * q / 65536) * / 4194304)%R. apply Rmult_le_compat_l; [apply Rabs_pos|].
    assert (A0 : (Rabs (1 - 1) <= 0)%R) by (rewrite Rminus_diag_eq by reflexivity; rewrite Rabs_R0; lra).
    pose proof (grow _ _ _ _ A0 E1) as A1. pose proof (grow _ _ _ _ A1 E2) as A2. pose proof (grow _ _ _ _ A2 E3) as A3. pose proof (grow _ _ _ _ A3 E4) as A4.
    eapply Rle_trans; [exact A4|]. lra.
Qed.
Lemma epson_red : is_finite (flit 1078 1000) = true /\ (Rabs (B2R (flit 1078 1000) / (1078 / 1000) - 1) <= 95 / 100 / 16777216)%R.
Proof.
  split; [vm_compute; reflexivity|]. rewrite <- SF2R_B2SF. replace (B2SF (flit 1078 1000)) with (SpecFloat.S754_finite false 9042919 (-23)) by (vm_compute; reflexivity).
  cbn [SF2R cond_Zopp]. unfold F2R. cbn [Fnum Fexp]. change (bpow radix2 (-23)) with (/ IZR 8388608)%R. apply Rabs_le. lra.
Qed.
Lemma epson_blue : is_finite (flit 1173 1000) = true /\ (Rabs (B2R (flit 1173 1000) / (1173 / 1000) - 1) <= 95 / 100 / 16777216)%R.
Proof.
  split; [vm_compute; reflexivity|]. rewrite <- SF2R_B2SF. replace (B2SF (flit 1173 1000)) with (SpecFloat.S754_finite false 9839837 (-23)) by (vm_compute; reflexivity).
  cbn [SF2R cond_Zopp]. unfold F2R. cbn [Fnum Fexp]. change (bpow radix2 (-23)) with (/ IZR 8388608)%R. apply Rabs_le. lra.
Qed.

(** ** Rows with control bytes, and whatever follows *)
Lemma control_rows : forall rows w c rest, 0 < w -> w mod 2 = 0 -> byte c -> bytes rest ->
  Forall (fun row => zlen row = w) rows -> Forall (Forall (Spec_Packed.fits 12)) rows ->
  decode_12be_wcontrol (pack_rows (w * 12 / 8 + (w + 2) / 10) c (fun row => with_control c (pack 12 row)) rows ++ rest) w (Z.of_nat (length rows)) = Ok (concat rows).
Proof.
  intros rows w c more Hw He Hc Hm F Ff. set (s := w * 12 / 8 + (w + 2) / 10).
  assert (Hs : 0 <= s) by (unfold s; lia).
  set (e := fun row => with_control c (pack 12 row)).
  assert (Fs : Forall (fun row => zlen (e row) <= s) rows).
  { eapply Forall_impl; [|exact F]. cbn beta. intros row Hr. destruct (row_even row w Hr He) as [m Hm'].
    unfold e, zlen in *. rewrite (with_control_length c m) by (apply pack_length; assumption). unfold s. lia. }
  destruct (Props_Packed.C05_12be_control_bytes (pack_rows s c e rows ++ more) w (Z.of_nat (length rows))) as [img [E I]]; try assumption; try lia.
  - apply Forall_app. split; [|exact Hm]. apply pack_rows_bytes; [assumption|]. intros row. unfold e. eapply with_control_bytes; eauto. apply pack_bytes.
  - rewrite app_length. pose proof (pack_rows_zlen s c e rows Fs) as Z. unfold zlen in Z. unfold s in *. lia.
  - rewrite E. f_equal. eapply rows_determined; [exact Hw|exact F|exact I|]. intros r k Hr Hk. cbv beta.
    fold s.
    destruct (pack_rows_skip s c e rows (Z.to_nat r) Fs Hs ltac:(lia)) as [rest Er].
    rewrite Z2Nat.id in Er by lia.
    rewrite skipn_app, Er. unfold e at 1. rewrite <- app_assoc.
    destruct (without_with_control c _ (pack 12 (nth (Z.to_nat r) rows [])) (rest ++ skipn (Z.to_nat (r * s) - length (pack_rows s c e rows)) more) eq_refl) as [rest' Er']. rewrite Er'.
    assert (Hrow : zlen (nth (Z.to_nat r) rows []) = w).
    { rewrite Forall_forall in F. apply F. apply nth_In. lia. }
    apply packed_sample_pack.
    + rewrite Forall_forall in Ff. apply Ff. apply nth_In. lia.
    + eapply row_even; eassumption.
    + lia.
Qed.
Lemma swapped_app : forall k q a b, (0 < k)%nat -> length a = (k * q)%nat -> swapped k (a ++ b) = swapped k a ++ swapped k b.
Proof.
  intros k q a b Hk Ha. rewrite (swapped_split k q (a ++ b)) by (rewrite ?app_length; lia).
  rewrite firstn_app, <- Ha, Nat.sub_diag, firstn_O, app_nil_r, firstn_all, skipn_app, Nat.sub_diag, skipn_all. reflexivity.
Qed.

Section Any.
Context {M : Mode} (powf : f32 -> f32 -> f32) (parse_f32 : string -> option f32).
Variables (db : list table) (l : loader).
Hypothesis Hl : loader_new db = Ok l.
Ltac enter G := eapply lib_decodes; [exact Hl|]; unfold decode; rewrite G; cbn [bind decoder_image].
Ltac picture Hp Hd := destruct (pictured _ _ _ _ _ _ _ _ _ _ _ _ ltac:(eassumption) (tf_bytes _ _ _ (np_file _ _ _ _ _ _ _ _ _ Hp)) Hd) as (sub & [F1 F2 S2 [W Rw] [H Rh] (off & O2 & O3 & O4) B]).
Lemma see_has_bytes : forall big fs i tag vs, Sees big fs i -> has_bytes fs tag vs -> exists en, find_entry i tag = Some en /\ e_count en = Z.of_nat (length vs) /\ e_data en = vs.
Proof.
  intros big fs i tag vs P [[Hf|Hf] Hb].
  - destruct (see_bytes _ _ _ _ _ _ P (or_introl eq_refl) Hf Hb) as (en & A & B & C & _). eauto.
  - destruct (see_bytes _ _ _ _ _ _ P (or_intror eq_refl) Hf Hb) as (en & A & B & C & _). eauto.
Qed.

(** ** Epson *)
Lemma erf_nested : forall big ts raw model rows c rest file w o cam vs,
  let h := Z.of_nat (length rows) in
  nested_photo l "" big ts "SEIKO EPSON CORP." model file o cam ->
  picture_at ts file T_CFAPattern T_ImageWidth T_ImageLength T_StripOffsets raw w h
    (pack_rows (w * 12 / 8 + (w + 2) / 10) c (fun row => with_control c (pack 12 row)) rows ++ rest) ->
  0 < w -> Z.even w = true -> byte c -> Forall (fun row => Z.of_nat (length row) = w) rows -> Forall (Forall (Spec_Packed.fits 12)) rows ->
  has_bytes (visible ts) T_EpsonWB vs -> Z.of_nat (length vs) = 256 ->
  exists img, lib_decode powf parse_f32 db file = Ok img /\ shows img cam o w h /\ i_data img = concat rows /\ i_blacks img = c_blacks cam /\ epson_balance img vs.
Proof.
  intros big ts raw model rows c rest file w o cam vs h Hp Hd Hw He Hc Hr Hs Hv Lv. destruct (nested_opened _ _ _ _ _ _ _ _ _ ERF Hp eq_refl) as (root & [G P C N]). picture Hp Hd.
  destruct (see_has_bytes _ _ _ _ _ (n_sees _ _ _ P) Hv) as (en & E1 & E2 & E3). destruct Hv as [_ Hv].
  destruct (be_two vs 48 Hv ltac:(lia) ltac:(lia)) as [R1 R2]. destruct (be_two vs 50 Hv ltac:(lia) ltac:(lia)) as [B1 B2].
  match goal with R : BEu16 vs 48 = Ok ?r, S : BEu16 vs 50 = Ok ?b |- _ =>
    destruct (finished cam o w h (V4 (fdiv (fmul (fmul (f32_of r) (flit 508 1)) (flit 1078 1000)) (flit 65536 1)) (flit 1 1)
           (fdiv (fmul (fmul (f32_of b) (flit 382 1)) (flit 1173 1000)) (flit 65536 1)) NAN) (concat rows) N) as (img & I1 & I2 & I3 & I4 & I5) end.
  exists img. split; [|split; [exact I2|split; [exact I3|split; [exact I4|]]]].
  - enter G. unfold erf_image, check_supported. rewrite C. cbn [bind]. rewrite F2. cbn [bind]. rewrite W, H, O2. cbn [bind]. rewrite O3. cbn [bind].
    rewrite <- app_assoc in *. apply Forall_app in B. unfold h. rewrite control_rows; [|lia|apply even_mod; exact He|exact Hc|apply B|exact Hr|exact Hs]. cbn [bind].
    unfold erf_wb, fetch_tag. rewrite E1. cbn [bind]. rewrite E2, Lv. cbn [Z.eqb Pos.eqb negb]. rewrite E3, R1, B1. cbn [bind]. exact I1.
  - unfold epson_balance. rewrite I5. cbn [e0 e1 e2 e3]. split; [|split; [apply near_1|split; [|reflexivity]]].
    + replace (IZR (two_bytes vs 48) * 508 * 1.078 / 65536)%R with (IZR (two_bytes vs 48) * IZR 508 * (IZR 1078 / 1000) / 65536)%R by lra. destruct epson_red. apply factor_close; try lia; assumption.
    + replace (IZR (two_bytes vs 50) * 382 * 1.173 / 65536)%R with (IZR (two_bytes vs 50) * IZR 382 * (IZR 1173 / 1000) / 65536)%R by lra. destruct epson_blue. apply factor_close; try lia; assumption.
Qed.

(** ** Hasselblad *)
Lemma tfr_nested : forall big ts raw model file w w0 h o cam hs prec id a b comps tables pt scan more pic rest qa qb qc,
  let cs := (id, (a, b)) :: comps in
  let c := nth (Z.to_nat (nth 0 tables 0)) hs (mkcode [] []) in
  nested_photo l "" big ts "Hasselblad" model file o cam ->
  picture_at ts file T_WhiteLevel T_ImageWidth T_ImageLength T_StripOffsets raw (2 * w) h (jpeg_sampled hs prec w0 h cs tables 8 pt (scan ++ more)) ->
  (1 <= length hs <= 4)%nat -> Forall (good_code debug prec) hs -> Forall (fun c => ~ In 16 (hc_syms c)) hs ->
  12 <= prec <= 16 -> 0 < w0 < 65536 -> h < 65536 -> 0 <= pt < 16 -> a <> 2 ->
  (length cs <= 4)%nat -> Z.of_nat (length cs) * w0 = 2 * w -> w <= 32767 ->
  Forall (fun '(_, (a, b)) => 0 <= a <= 15 /\ 0 <= b <= 15) cs ->
  NoDup (map fst cs) -> length tables = length cs -> Forall (fun t => 0 <= t < Z.of_nat (length hs)) tables ->
  (Z.of_nat (length scan)) mod 4 = 0 -> bits_of (swapped 4 scan) = hass_coded c pic w h ++ rest ->
  picture_of_samples pic 2 w h ->
  (forall r j i, 0 <= r < h -> 0 <= j < w -> 0 <= i < 2 -> has_word prec c (hass_residual pic r j i)) ->
  has_fractions big (visible ts) T_AsShotNeutral [qa; qb; qc] -> Forall moderate [qa; qb; qc] ->
  exists img, lib_decode powf parse_f32 db file = Ok img /\ shows img cam o (2 * w) h /\ i_data img = hass_samples pic w h /\ i_blacks img = c_blacks cam /\
    inverse (e0 (i_wb img)) qa /\ inverse (e1 (i_wb img)) qb /\ inverse (e2 (i_wb img)) qc /\ e3 (i_wb img) = B754_nan.
Proof.
  intros big ts raw model file w w0 h o cam hs prec id a b comps tables pt scan more pic rest qa qb qc cs c Hp Hd K1 K2 K3 K4 K5 K6 K7 K8 K9 K10 K11 K12 K13 K14 K15 Ls Hs Hpic Hw Hq Hm.
  destruct (nested_opened _ _ _ _ _ _ _ _ _ TFR Hp eq_refl) as (root & [G P C N]). picture Hp Hd.
  destruct (see_fractions _ _ _ _ _ (n_sees _ _ _ P) Hq) as (en & E1 & _ & E3). pose proof (Forall_inv Hm) as Ma. pose proof (Forall_inv (Forall_inv_tail Hm)) as Mb. pose proof (Forall_inv (Forall_inv_tail (Forall_inv_tail Hm))) as Mc.
  destruct qa as [a1 a2], qb as [b1 b2], qc as [c1 c2].
  destruct (E3 0%nat _ _ eq_refl) as (x & X1 & X2). destruct (E3 1%nat _ _ eq_refl) as (y & Y1 & Y2). destruct (E3 2%nat _ _ eq_refl) as (z & Z1 & Z2).
  change (Z.of_nat 0) with 0 in X1. change (Z.of_nat 1) with 1 in Y1. change (Z.of_nat 2) with 2 in Z1.
  assert (A : jpeg_sampled hs prec w0 h cs tables 8 pt (scan ++ more) ++ zeros 16 = jpeg_sampled hs prec w0 h cs tables 8 pt (scan ++ more ++ zeros 16)) by (unfold jpeg_sampled; rewrite <- !app_assoc; reflexivity).
  rewrite A in *. assert (Bs : bytes (scan ++ more ++ zeros 16)).
  { unfold jpeg_sampled in B. apply Forall_app in B. destruct B as [_ B]. apply Forall_app in B. destruct B as [_ B]. apply Forall_app in B. destruct B as [_ B]. apply Forall_app in B. apply B. }
  assert (Sp : exists n, (32 <= length (rest ++ n))%nat /\ stream MSB32 (scan ++ more ++ zeros 16) 0 = hass_coded c pic w h ++ rest ++ n).
  { exists (bits_of (swapped 4 (more ++ zeros 16))). split.
    - rewrite app_length. assert (exists k, length (swapped 4 (more ++ zeros 16)) = (4 * S k)%nat) as [k Hk].
      { assert (L : length (more ++ zeros 16) = (4 * ((length more + 16) / 4) + (length more + 16) mod 4)%nat) by (rewrite app_length; change (length (zeros 16)) with 16%nat; apply Nat.div_mod; lia).
        pose proof (Nat.mod_upper_bound (length more + 16) 4 ltac:(lia)) as U.
        exists ((length more + 16) / 4 - 1)%nat. rewrite (swapped_split 4 ((length more + 16) / 4)) by lia. rewrite app_length. rewrite (swapped_short 4 (skipn _ _)) by (rewrite skipn_length; lia).
        rewrite (swapped_length 4 ((length more + 16) / 4)) by (try lia; rewrite firstn_length; lia). cbn [length]. assert (1 <= (length more + 16) / 4)%nat by (apply Nat.div_le_lower_bound; lia). lia. }
      rewrite bits_of_length, Hk. lia.
    - cbn [stream]. assert (exists q, length scan = (4 * q)%nat) as [q Hq'] by (exists (length scan / 4)%nat; lia).
      rewrite (swapped_app 4 q) by (try lia; exact Hq'). rewrite bits_of_app, Hs, <- app_assoc. reflexivity. }
  destruct Sp as (n & Ln & Sp).
  destruct (Props_Ljpeg2.C20_hasselblad_file hs prec w0 w h id a b comps tables pt (scan ++ more ++ zeros 16) true false pic 0 (rest ++ n) K1 K2 (fun _ => K3) K4 K5 (conj (proj1 Rh) K6) K7 K8 K9 K10 K11 K12 K13 K14 K15)
    as (lj & D1 & _ & _ & D2); try assumption.
  - discriminate.
  - split; [exact Bs|discriminate].
  - destruct (finished cam o (2 * w) h (V4 (fdiv (flit 1 1) x) (fdiv (flit 1 1) y) (fdiv (flit 1 1) z) NAN) (hass_samples pic w h) N) as (img & I1 & I2 & I3 & I4 & I5).
    exists img. split; [|split; [exact I2|split; [exact I3|split; [exact I4|]]]].
    + enter G. unfold tfr_image, check_supported. rewrite C. cbn [bind]. rewrite F2. cbn [bind]. rewrite W, H, O2. cbn [bind]. rewrite O3. cbn [bind].
      fold cs in D1. rewrite D1. cbn [bind]. rewrite D2 by (rewrite zeros_length; nia). cbn [bind]. unfold fetch_tag. rewrite E1. cbn [bind]. unfold inverse_wb. rewrite X1, Y1. cbn [bind]. rewrite Z1. cbn [bind]. exact I1.
    + rewrite I5. cbn [e0 e1 e2 e3]. split; [|split; [|split; [|reflexivity]]]; apply inverse_close; assumption.
Qed.
End Any.
