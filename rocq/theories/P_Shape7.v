(** Proofs about the size of decoded images (C45): Canon files of three components. *)
From Coq Require Import String ZArith List Bool Lia ZifyBool ZifyNat.
From Verif Require Import Base Num F32 Bytes Lookup Threads Packed Ljpeg Tiff Image Camera Clients Decoder Cr2 Dec_Ljpeg Dispatch.
From Verif Require Import Spec_Bits Spec_Camera Spec_Ljpeg Spec_Shape P_Base P_Lookup P_Ljpeg1 P_Ljpeg5 P_Ljpeg7 P_Ljpeg12 P_Ljpeg13 P_Sensor4 P_Srw3b P_Shape5.
Import ListNotations.
Local Open Scope Z_scope.

Lemma as_i32_fits : forall v, -2147483648 <= v < 2147483648 -> as_i32 v = v.
Proof.
  intros v H. unfold as_i32, swrap. change (2 ^ (32 - 1)) with 2147483648. change (2 ^ 32) with 4294967296. cbv zeta. Z.div_mod_to_equations. lia.
Qed.
(** With no white balance the coefficients are zero. *)
Lemma yuv_zero : forall {M : Mode} off a b c, off = 0 \/ off = 512 -> sample a -> sample b -> sample c -> yuv_to_rgb 0 0 0 off [a; b; c] = Ok [0; 0; 0].
Proof.
  intros M off a b c Ho Ha Hb Hc. unfold sample in *. unfold yuv_to_rgb.
  change (get [a; b; c] 0) with (Ok a). change (get [a; b; c] 1) with (Ok b). change (get [a; b; c] 2) with (Ok c). cbn [bind].
  assert (Q : forall x, Z.mul 0 x = 0) by reflexivity.
  assert (M0 : forall s, i32mul 0 s = Ok 0) by (intros s; unfold i32mul; rewrite Q; apply arith_s_ok; change (2 ^ (32 - 1)) with 2147483648; lia).
  rewrite i32sub_ok by lia. cbn [bind]. rewrite i32sub_ok by lia. cbn [bind]. rewrite i32sub_ok by lia. cbn [bind]. rewrite i32add_ok by lia. cbn [bind].
  rewrite M0. cbn [bind]. unfold i32mul at 1. rewrite arith_s_ok by (change (2 ^ (32 - 1)) with 2147483648; lia). cbn [bind].
  assert (S1 : as_i32 (Z.shiftl (c - 16383) 11) = 2048 * (c - 16383)) by (rewrite Z.shiftl_mul_pow2 by lia; change (2 ^ 11) with 2048; rewrite Z.mul_comm; apply as_i32_fits; lia).
  rewrite S1. rewrite i32sub_ok by lia. cbn [bind].
  assert (S2 : -70000 <= Z.shiftr (-778 * (b - 16383) - 2048 * (c - 16383)) 12 <= 70000).
  { rewrite Z.shiftr_div_pow2 by lia. change (2 ^ 12) with 4096. Z.div_mod_to_equations. lia. }
  rewrite i32add_ok by lia. cbn [bind]. rewrite M0. cbn [bind]. rewrite i32add_ok by lia. cbn [bind]. rewrite M0. cbn [bind].
  change (Z.shiftr 0 8) with 0. change (clampbits 0 16) with (Ok 0 : res Z). reflexivity.
Qed.
Lemma rgb_zero : forall {M : Mode} off (l : list Z) n, off = 0 \/ off = 512 -> samples l -> length l = (3 * n)%nat ->
  exists px, mapM (yuv_to_rgb 0 0 0 off) (chunks 3 l) = Ok px /\ length (concat px) = length l.
Proof.
  intros M off l n Ho. revert l. induction n as [|n IH]; intros l Hs Hl.
  - destruct l; [|discriminate Hl]. exists []. split; reflexivity.
  - do 3 (destruct l as [|? l]; [cbn in Hl; lia|]). destruct (IH l) as [px [E L]]; [do 3 apply Forall_inv_tail in Hs; exact Hs|cbn in Hl; lia|].
    exists ([0; 0; 0] :: px). split; [|cbn [concat app length]; rewrite L; reflexivity].
    rewrite P_Threads.chunks_cons by (lia || discriminate). cbn [firstn skipn mapM].
    rewrite yuv_zero; [cbn [bind]; rewrite E; reflexivity|exact Ho|exact (Forall_inv Hs)|exact (Forall_inv (Forall_inv_tail Hs))|exact (Forall_inv (Forall_inv_tail (Forall_inv_tail Hs)))].
Qed.
(** What the image of a Canon file of three components depends on *)
Definition canon_three {M : Mode} (db : list table) (file : list Z) :=
  match (l <- loader_new db ;; d <- get_decoder l (buffer_new file) (zlen file) ;;
    match d with DTiff CR2 t => c <- check_supported l t ;; Ok (t, c) | _ => Err "" end) with
  | Ok (t, c) => Some (find_hint c "linearization", c_blackareah c, c_blackareav c,
      match cr2_raw t with Ok (raw, o) => Some (o, has_entry raw T_Cr2StripeWidths, has_entry raw T_ImageWidth, tag_usize raw T_ImageWidth, tag_usize raw T_ImageLength) | _ => None end,
      has_entry t T_Cr2ColorData, has_entry t T_Cr2PowerShotWB, has_entry t T_Cr2OldWB)
  | _ => None
  end.
Lemma nan_int : f32_to (- 2 ^ 31) (2 ^ 31 - 1) (fdiv (flit 1048576 1) NAN) = 0 /\ f32_to (- 2 ^ 31) (2 ^ 31 - 1) NAN = 0.
Proof. split; lazy; reflexivity. Qed.
Lemma tripled : forall (M : Mode) powf parse_f32 db file sized rw rh o src lj out,
  canon_three db file = Some (false, (0, 0), (0, 0), Some (o, false, sized, rw, rh), false, false, false) ->
  slice_from (buffer_new file) o = Ok src -> ljpeg_new src = Ok lj -> lj_super_h lj = Ok 2 ->
  ljpeg_decode lj (zeros (lj_width lj * lj_height lj)) 0 (lj_width lj) (lj_width lj) (lj_height lj) = Ok out -> samples out -> (length out mod 3 = 0)%nat ->
  forall w h, (if sized : bool then (a <- rw ;; b <- rh ;; Ok (a * 3, b)) else Ok (if lj_width lj / 3 <? lj_height lj then (lj_height lj * 3, lj_width lj / 3) else (lj_width lj, lj_height lj))) = Ok (w, h) ->
  exists l t img raw, loader_new db = Ok l /\ get_decoder l (buffer_new file) (zlen file) = Ok (DTiff CR2 t) /\
    lib_decode powf parse_f32 db file = Ok img /\ cr2_raw t = Ok (raw, o) /\ has_entry raw T_ImageWidth = sized /\ tag_usize raw T_ImageWidth = rw /\ tag_usize raw T_ImageLength = rh /\
    i_width img = w / 3 /\ i_height img = h /\ i_cpp img = 3 /\ length (i_data img) = length out.
Proof.
  intros M powf parse_f32 db file sized rw rh o src lj out F Sl N Sh O Hs H3 w h Hsz. unfold canon_three in F.
  destruct (loader_new db) as [l|m| |] eqn:L; cbn [bind] in F; try discriminate F.
  destruct (get_decoder l _ _) as [d|m| |] eqn:D; cbn [bind] in F; try discriminate F.
  destruct d as [| | | |f t|]; try discriminate F. destruct f; try discriminate F.
  destruct (check_supported l t) as [c|m| |] eqn:C; cbn [bind] in F; try discriminate F.
  destruct (cr2_raw t) as [[raw o']|m| |] eqn:R; try discriminate F. injection F as F1 F2 F3 F4 F5 F6 F7 F8 F9 F10 F11. subst o'.
  destruct (rgb_zero (if find_hint c "40d_yuv" then 512 else 0) out (length out / 3)%nat) as [px [Ep Lp]];
    [destruct (find_hint c "40d_yuv"); auto|exact Hs|pose proof (Nat.div_mod (length out) 3 ltac:(lia)); lia|].
  assert (WB : cr2_wb t c = Ok nans).
  { unfold cr2_wb. unfold has_entry in F9, F10, F11. destruct (find_entry t T_Cr2ColorData); [discriminate F9|]. destruct (find_entry t T_Cr2PowerShotWB); [discriminate F10|]. destruct (find_entry t T_Cr2OldWB); [discriminate F11|]. reflexivity. }
  assert (RGB : convert_to_rgb t c out = Ok (concat px)).
  { unfold convert_to_rgb. rewrite WB. cbn [bind]. cbv zeta. unfold nans, all4. cbn [e0 e1 e2]. destruct nan_int as [-> ->]. rewrite Ep. reflexivity. }
  exists l, t. eexists. exists raw. split; [reflexivity|]. split; [exact D|]. split; [|split; [exact R|split; [exact F6|split; [exact F7|split; [exact F8|]]]]].
  - unfold lib_decode. rewrite L. cbn [bind]. unfold decode_safe, decode. cbv zeta. rewrite D. cbn [bind decoder_image].
    unfold cr2_image. rewrite C. cbn [bind]. rewrite R. cbn [bind]. rewrite Sl. cbn [bind]. rewrite N. cbn [bind]. cbv zeta. rewrite Sh. cbn [bind].
    change (2 =? 2) with true. cbn iota. rewrite O. cbn [bind]. unfold cr2_linearize. rewrite F1. cbn [bind].
    assert (SZ : cr2_size t raw c 3 (lj_width lj) (lj_height lj) out = Ok (w, h, concat px)).
    { unfold cr2_size. change (3 =? 3) with true. cbn iota. rewrite RGB. cbn [bind]. rewrite F6, F7, F8. destruct sized.
      - destruct rw as [a|m| |]; cbn [bind] in *; try discriminate Hsz. destruct rh as [b|m| |]; cbn [bind] in *; try discriminate Hsz. injection Hsz as <- <-. reflexivity.
      - destruct (lj_width lj / 3 <? lj_height lj); injection Hsz as <- <-; reflexivity. }
    rewrite SZ. cbn [bind].
    unfold cr2_stripes. unfold has_entry in F5. destruct (find_entry raw T_Cr2StripeWidths); [discriminate F5|]. cbn [bind]. rewrite WB.
    cbn [bind]. unfold ok_image, black_levels. rewrite F2, F3. cbn [bind]. change (3 =? 3) with true. cbn iota. reflexivity.
  - unfold img_three. cbn [i_width i_height i_cpp i_data]. auto.
Qed.
(** A directory that gives the size of the picture *)
Definition sized_head (w h : Z) : list Z :=
  [73; 73; 42; 0; 8; 0; 0; 0; 6; 0;
   0; 1; 3; 0; 1; 0; 0; 0; w; 0; 0; 0;
   1; 1; 3; 0; 1; 0; 0; 0; h; 0; 0; 0;
   15; 1; 2; 0; 6; 0; 0; 0; 86; 0; 0; 0;
   16; 1; 2; 0; 2; 0; 0; 0; 65; 0; 0; 0;
   17; 1; 4; 0; 1; 0; 0; 0; 92; 0; 0; 0;
   142; 130; 1; 0; 1; 0; 0; 0; 0; 0; 0; 0;
   0; 0; 0; 0; 67; 97; 110; 111; 110; 0].
(** A picture of 2 x 1 pixels with subsampled colour *)
Definition sub_jpeg (tail : list Z) : list Z :=
  jpeg_sampled [dc_code] 14 2 1 [(1, (2, 1)); (2, (1, 1)); (3, (1, 1))] [0; 0; 0] 1 0 (stuff [0] ++ [255; 217] ++ tail).
Definition sized_file (w h : Z) : list Z := sized_head w h ++ sub_jpeg [].
(** A picture of two components and three lines of two samples *)
Definition tall_jpeg (tail : list Z) : list Z :=
  jpeg_sampled [dc_code] 14 1 3 [(1, (2, 3)); (2, (1, 1))] [0; 0] 1 0 (stuff [0; 0] ++ [255; 217] ++ tail).
Definition tall_file : list Z := odd_head ++ tall_jpeg [].
Lemma sized_facts : forall M : Mode, canon_three (canon_db []) (sized_file 5 7) = Some (false, (0, 0), (0, 0), Some (92, false, true, Ok 5, Ok 7), false, false, false).
Proof. intros [|]; lazy; reflexivity. Qed.
Lemma agreed_facts : forall M : Mode, canon_three (canon_db []) (sized_file 2 1) = Some (false, (0, 0), (0, 0), Some (92, false, true, Ok 2, Ok 1), false, false, false).
Proof. intros [|]; lazy; reflexivity. Qed.
Definition no_tag : res Z := Err "Couldn't find tag"%string.
Lemma tall_facts : forall M : Mode, exists e1 e2, canon_three (canon_db []) tall_file = Some (false, (0, 0), (0, 0), Some (68, false, false, e1, e2), false, false, false).
Proof. intros [|]; do 2 eexists; lazy; reflexivity. Qed.
Lemma sized_rest : forall w h, slice_from (buffer_new (sized_file w h)) 92 = Ok (sub_jpeg (zeros 16)).
Proof. intros. lazy. reflexivity. Qed.
Lemma tall_rest : slice_from (buffer_new tall_file) 68 = Ok (tall_jpeg (zeros 16)).
Proof. lazy. reflexivity. Qed.
Lemma zeros_bytes : forall n, bytes (zeros n).
Proof. intros n. apply Forall_forall. intros x Hx. apply repeat_spec in Hx. subst x. unfold byte. lia. Qed.
Definition even_pic : picture := fun r j i => 8192.
Lemma sub_lj : forall M : Mode, exists lj, ljpeg_new (sub_jpeg (zeros 16)) = Ok lj /\ lj_width lj = 6 /\ lj_height lj = 1 /\ lj_super_h lj = Ok 2 /\
  exists out, ljpeg_decode lj (zeros 6) 0 6 6 1 = Ok out /\ length out = 6%nat /\ samples out.
Proof.
  intros M.
  destruct (snew_file [dc_code] 14 2 1 [(1, (2, 1)); (2, (1, 1)); (3, (1, 1))] [0; 0; 0] 1 0 (stuff [0] ++ [255; 217] ++ zeros 16) false false) as [lj' [E' [_ [_ [_ [[cs [Es Ec]] _]]]]]].
  - ncomp.
  - constructor; [apply dc_good|constructor].
  - zcomp.
  - zcomp.
  - zcomp.
  - zcomp.
  - ncomp.
  - repeat constructor; cbn; lia.
  - repeat constructor; cbn [In map fst]; lia.
  - reflexivity.
  - repeat constructor; cbn [length]; lia.
  - discriminate.
  - destruct (sub_file [dc_code] 14 1 1 1 1 2 3 (1, 1) (1, 1) [0; 0; 0] 1 0 [0] (zeros 16) false false even_pic []) as [lj [E [Ew [Eh H]]]].
    + left. reflexivity.
    + ncomp.
    + constructor; [apply dc_good|constructor].
    + discriminate.
    + zcomp.
    + lia.
    + lia.
    + zcomp.
    + repeat constructor; cbn; lia.
    + repeat constructor; cbn [In]; lia.
    + reflexivity.
    + repeat constructor; cbn [length]; lia.
    + discriminate.
    + repeat constructor; discriminate.
    + apply zeros_bytes.
    + discriminate.
    + zcomp.
    + intros r j i Hr Hj Hi. unfold even_pic, sample. lia.
    + intros r j i Hr Hj Hi. assert (r = 0) by lia. assert (j = 0) by lia. assert (i = 0 \/ i = 1 \/ i = 2 \/ i = 3) as [I|[I|[I|I]]] by lia; subst; dc_word.
    + vm_compute. reflexivity.
    + change (2 * 1) with 2 in E. change (1 * 1) with 1 in E. rewrite E in E'. injection E' as <-. exists lj. split; [exact E|]. split; [exact Ew|]. split; [exact Eh|]. split.
      * unfold lj_super_h. rewrite Es, Ec. reflexivity.
      * destruct (H (zeros 6) 0 6) as [out [Eo [Lo [P _]]]]; [vm_compute; discriminate|]. exists out. split; [exact Eo|]. split; [exact Lo|].
        apply Forall_forall. intros x Hx. apply (In_nth _ _ 0) in Hx. destruct Hx as [k [Hk Ek]]. rewrite Lo in Hk. change (length (zeros 6)) with 6%nat in Hk.
        specialize (P 0 (Z.of_nat k) ltac:(lia) ltac:(lia)). rewrite Z.mul_0_l, Z.add_0_l, Nat2Z.id in P. rewrite <- Ek, P. unfold sub_sample, even_pic, sample. cbv zeta. destruct (_ mod 3) as [|[]|]; lia.
Qed.
Lemma tall_lj : forall M : Mode, exists lj, ljpeg_new (tall_jpeg (zeros 16)) = Ok lj /\ lj_width lj = 2 /\ lj_height lj = 3 /\ lj_super_h lj = Ok 2 /\
  exists out, ljpeg_decode lj (zeros 6) 0 2 2 3 = Ok out /\ length out = 6%nat /\ samples out.
Proof.
  intros M.
  destruct (comps_file [dc_code] 14 1 3 1 2 3 [(2, (1, 1))] [0; 0] 0 [0; 0] (zeros 16) false false even_pic [false; false; false; false]) as [lj [E [Ew [Eh [[t Et] H]]]]].
  - intros _. lia.
  - ncomp.
  - constructor; [apply dc_good|constructor].
  - discriminate.
  - zcomp.
  - zcomp.
  - zcomp.
  - zcomp.
  - zcomp.
  - repeat constructor; cbn; lia.
  - repeat constructor; cbn [In map fst]; lia.
  - reflexivity.
  - repeat constructor; cbn [length]; lia.
  - discriminate.
  - repeat constructor; discriminate.
  - apply zeros_bytes.
  - discriminate.
  - zcomp.
  - intros r j i Hr Hj Hi. unfold even_pic, sample. lia.
  - intros r j i Hr Hj Hi. cbn [length] in Hi. assert (r = 0 \/ r = 1 \/ r = 2) as [Q|[Q|Q]] by lia; assert (j = 0) by lia; assert (i = 0 \/ i = 1) as [I|I] by lia; subst; dc_word.
  - vm_compute. reflexivity.
  - exists lj. split; [exact E|]. split; [exact Ew|]. split; [exact Eh|]. split; [unfold lj_super_h; rewrite Et; reflexivity|].
    destruct (H (zeros 6) 0 2 1 3) as [out [Eo P]]; cbn [length]; try lia; [vm_compute; discriminate|]. exists out. split; [exact Eo|].
    destruct P as [Lo P]. split; [exact Lo|].
    apply Forall_forall. intros x Hx. apply (In_nth _ _ 0) in Hx. destruct Hx as [k [Hk Ek]]. rewrite Lo in Hk. change (length (zeros 6)) with 6%nat in Hk.
    destruct P as [P _]. clear - P Hk Ek. specialize (P (Z.of_nat (k / 2)) 0 (Z.of_nat (k mod 2))).
    pose proof (Nat.div_mod k 2 ltac:(lia)) as DM. pose proof (Nat.mod_upper_bound k 2 ltac:(lia)) as MB.
    specialize (P ltac:(lia) ltac:(lia) ltac:(cbn [length]; lia)).
    replace (Z.to_nat _) with k in P by (cbn [length]; lia). rewrite <- Ek, P. unfold even_pic, sample. lia.
Qed.

Lemma small_toml : is_toml (canon_db []).
Proof. intros ct m [<-|[]] [<-|[]]. unfold unique_keys. cbn. repeat (constructor; [cbn; intuition discriminate|]). constructor. Qed.
Lemma sized_bytes : bytes (sized_file 5 7).
Proof. apply P_Srw3b.bytes_check. vm_compute. reflexivity. Qed.
Lemma tall_bytes : bytes tall_file.
Proof. apply P_Srw3b.bytes_check. vm_compute. reflexivity. Qed.
Lemma sized_image : forall (M : Mode) powf parse_f32, exists db file img, bytes file /\ file <> [] /\ is_toml db /\
  lib_decode powf parse_f32 db file = Ok img /\ i_width img = 5 /\ i_height img = 7 /\ i_cpp img = 3 /\ length (i_data img) = 6%nat.
Proof.
  intros M powf parse_f32. destruct (sub_lj M) as [lj [N [W [Hh [Sh [out [O [Lo So]]]]]]]].
  destruct (tripled M powf parse_f32 (canon_db []) (sized_file 5 7) true (Ok 5) (Ok 7) 92 _ lj out (sized_facts M) (sized_rest 5 7) N Sh) with (w := 15) (h := 7)
    as [l [t [img [raw [_ [_ [E [_ [_ [_ [_ [Ew [Eh [Ec Ed]]]]]]]]]]]]]].
  { rewrite W, Hh. exact O. } { exact So. } { rewrite Lo. reflexivity. } { reflexivity. }
  exists (canon_db []), (sized_file 5 7), img. split; [exact sized_bytes|]. split; [discriminate|]. split; [exact small_toml|]. split; [exact E|].
  split; [exact Ew|]. split; [exact Eh|]. split; [exact Ec|]. rewrite Ed. exact Lo.
Qed.
Lemma tall_image : forall (M : Mode) powf parse_f32, exists db file img, bytes file /\ file <> [] /\ is_toml db /\
  lib_decode powf parse_f32 db file = Ok img /\ i_width img = 3 /\ i_height img = 0 /\ i_cpp img = 3 /\ length (i_data img) = 6%nat.
Proof.
  intros M powf parse_f32. destruct (tall_lj M) as [lj [N [W [Hh [Sh [out [O [Lo So]]]]]]]]. destruct (tall_facts M) as [e1 [e2 F]].
  destruct (tripled M powf parse_f32 (canon_db []) tall_file false e1 e2 68 _ lj out F tall_rest N Sh) with (w := 9) (h := 0)
    as [l [t [img [raw [_ [_ [E [_ [_ [_ [_ [Ew [Eh [Ec Ed]]]]]]]]]]]]]].
  { rewrite W, Hh. exact O. } { exact So. } { rewrite Lo. reflexivity. } { rewrite W, Hh. reflexivity. }
  exists (canon_db []), tall_file, img. split; [exact tall_bytes|]. split; [discriminate|]. split; [exact small_toml|]. split; [exact E|].
  split; [exact Ew|]. split; [exact Eh|]. split; [exact Ec|]. rewrite Ed. exact Lo.
Qed.
Lemma agreed_image : forall (M : Mode) powf parse_f32, exists db file img l t, lib_decode powf parse_f32 db file = Ok img /\
  loader_new db = Ok l /\ get_decoder l (buffer_new file) (zlen file) = Ok (DTiff CR2 t) /\ ordinary l (buffer_new file) t img /\
  i_width img = 2 /\ i_height img = 1 /\ i_cpp img = 3 /\ length (i_data img) = 6%nat.
Proof.
  intros M powf parse_f32. destruct (sub_lj M) as [lj [N [W [Hh [Sh [out [O [Lo So]]]]]]]].
  destruct (tripled M powf parse_f32 (canon_db []) (sized_file 2 1) true (Ok 2) (Ok 1) 92 _ lj out (agreed_facts M) (sized_rest 2 1) N Sh) with (w := 6) (h := 1)
    as [l [t [img [raw [L [D [E [R [I [I1 [I2 [Ew [Eh [Ec Ed]]]]]]]]]]]]]].
  { rewrite W, Hh. exact O. } { exact So. } { rewrite Lo. reflexivity. } { reflexivity. }
  exists (canon_db []), (sized_file 2 1), img, l, t. split; [exact E|]. split; [exact L|]. split; [exact D|]. split.
  - right. split; [exact Ec|]. left. split; [exists raw, 92; split; [exact R|exact I]|]. right.
    exists raw, 92, (sub_jpeg (zeros 16)), lj, 2, 1. split; [exact R|]. split; [exact (sized_rest 2 1)|]. split; [exact N|]. split; [exact I1|]. split; [exact I2|].
    rewrite W, Hh. reflexivity.
  - split; [exact Ew|]. split; [exact Eh|]. split; [exact Ec|]. rewrite Ed. exact Lo.
Qed.
