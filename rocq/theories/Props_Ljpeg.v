(** Properties C19 and C20: lossless JPEG. *)
From Coq Require Import String ZArith List Bool Lia.
From Verif Require Import Base Pumps Huffman ByteStream Ljpeg Spec_Bits Spec_Pump Spec_Stream Spec_Huffman Spec_Ljpeg
  P_Huff6 P_Huff7 P_Ljpeg3 P_Ljpeg5 P_Ljpeg6 P_Ljpeg7 P_Ljpeg9 P_Ljpeg10 P_Ljpeg11.
Import ListNotations.
Local Open Scope Z_scope.

(** ** C19: prediction *)

(** A decompressor whose data start with the coded differences of a picture
    puts the picture, or its upper left part, where it is asked to, and changes
    nothing else.  [n] is 2, 3 or 4 in the program. *)
Theorem C19_inverts_prediction : forall {M : Mode} lj dng codes n pic x stride w h out buf pad rest,
  let P := s_precision (lj_sof lj) in let W := s_width (lj_sof lj) in let H := s_height (lj_sof lj) in
  let base := 2 ^ (P - lj_pt lj - 1) in
  0 < n -> 0 <= lj_pt lj < P -> P <= 16 -> W < 2 ^ 64 ->
  (forall i, 0 <= i < n -> good_code debug P (codes i) /\ (dng = true -> ~ In 16 (hc_syms (codes i))) /\
    exists t, lj_table lj i = Ok t /\ huff_new (0 :: hc_counts (codes i)) (padded (hc_syms (codes i))) P dng = Ok t) ->
  lj_buffer lj = buf -> readable JPEG buf ->
  stream JPEG buf pad = coded codes n base pic W H ++ rest -> (32 <= length rest)%nat ->
  picture_of_samples pic n W H -> codable P codes n base pic W H ->
  0 < w <= W -> 0 < h <= H -> 0 <= x -> x + n * w <= stride -> (h - 1) * stride + x + n * w <= Z.of_nat (length out) ->
  exists out', decode_components n lj out x stride (n * w) h = Ok out' /\ pasted n x stride w h pic out out'.
Proof. exact @components_ok. Qed.
Print Assumptions C19_inverts_prediction.

(** The same for the strips of Leaf files. *)
Theorem C19_leaf_strip : forall {M : Mode} prec dng codes t1 t2 base pic w h src pad rest out,
  0 <= prec <= 16 -> 0 <= base < 65536 ->
  (forall i, 0 <= i < 2 -> good_code debug prec (codes i) /\ (dng = true -> ~ In 16 (hc_syms (codes i))) /\
      huff_new (0 :: hc_counts (codes i)) (padded (hc_syms (codes i))) prec dng = Ok (if i =? 0 then t1 else t2)) ->
  readable JPEG src -> stream JPEG src pad = coded codes 2 base pic w h ++ rest -> (32 <= length rest)%nat ->
  picture_of_samples pic 2 w h -> codable prec codes 2 base pic w h ->
  0 < w -> 0 < h -> Z.of_nat (length out) = 2 * w * h ->
  exists out', decode_leaf_strip src out (2 * w) h t1 t2 base = Ok out' /\ pasted 2 0 (2 * w) w h pic out out'.
Proof. exact @leaf_strip_ok. Qed.
Print Assumptions C19_leaf_strip.

(** Pictures with subsampled colour, 4:2:2 ([v] = 1) and 4:2:0 ([v] = 2), are
    written with three samples for each pixel, the colour samples repeated. *)
Theorem C19_subsampled : forall {M : Mode} lj dng codes v pic w h out pad rest,
  let P := s_precision (lj_sof lj) in
  let base := 2 ^ (P - lj_pt lj - 1) in
  v = 1 \/ v = 2 -> 0 < w -> 0 < h -> s_width (lj_sof lj) = 2 * w -> s_height (lj_sof lj) = v * h ->
  0 <= lj_pt lj < P -> P <= 16 ->
  (forall i, 0 <= i < 3 -> good_code debug P (codes i) /\ (dng = true -> ~ In 16 (hc_syms (codes i))) /\
    exists t, lj_table lj i = Ok t /\ huff_new (0 :: hc_counts (codes i)) (padded (hc_syms (codes i))) P dng = Ok t) ->
  readable JPEG (lj_buffer lj) ->
  stream JPEG (lj_buffer lj) pad = sub_coded codes v base pic w h ++ rest -> (32 <= length rest)%nat ->
  picture_of_samples pic (2 * v + 2) w h -> sub_codable P codes v base pic w h ->
  v * h * (6 * w) <= Z.of_nat (length out) ->
  exists out', (if v =? 1 then decode_ljpeg_422 lj out (6 * w) (v * h) else decode_ljpeg_420 lj out (6 * w) (v * h)) = Ok out' /\
   length out' = length out /\
   (forall R q, 0 <= R < v * h -> 0 <= q < 6 * w -> nth (Z.to_nat (R * (6 * w) + q)) out' 0 = sub_sample v pic R q) /\
   (forall q, v * h * (6 * w) <= Z.of_nat q -> nth q out' 0 = nth q out 0).
Proof. exact @sub_ok. Qed.
Print Assumptions C19_subsampled.

(** One block of 2 x 2 pixels. *)
Definition sub_pic : picture := fun r j i => 8192 + 10 * r + 3 * j - 2 * i.
Example C19_subsampled_ex : forall M : Mode, exists lj out', ljpeg_decode lj (zeros 12) 0 6 6 2 = Ok out' /\
  out' = [8192; 8184; 8182; 8190; 8184; 8182; 8188; 8184; 8182; 8186; 8184; 8182].
Proof.
  intros M. destruct (new_builds (hc_counts dc_code) (hc_syms dc_code) 14 false) as [t Ht].
  - apply (dc_good debug).
  - apply (dc_good debug).
  - lia.
  - apply (dc_good debug).
  - apply (dc_good debug).
  - set (lj := mkljpeg [26; 214; 215; 170] (mksof 2 2 3 14 [mkcomp 1 0 2 2; mkcomp 2 0 1 1; mkcomp 3 0 1 1] false) 1 0 [t]).
    destruct (C19_subsampled lj false (fun _ => dc_code) 2 sub_pic 1 1 (zeros 12) 32 (repeat false 33)) as [o [E [L [A _]]]].
    + right. reflexivity.
    + lia.
    + lia.
    + reflexivity.
    + reflexivity.
    + cbn. lia.
    + cbn. lia.
    + intros i Hi. split; [apply dc_good|]. split; [discriminate|]. exists t. split; [|exact Ht].
      assert (i = 0 \/ i = 1 \/ i = 2) as [I|[I|I]] by lia; subst i; reflexivity.
    + split; [repeat constructor; discriminate|]. intros _. split; [split; [discriminate|reflexivity]|discriminate].
    + vm_compute. reflexivity.
    + rewrite repeat_length. lia.
    + intros r j i Hr Hj Hi. unfold sub_pic, sample. lia.
    + intros r j i Hr Hj Hi. assert (r = 0) by lia. assert (j = 0) by lia.
      assert (i = 0 \/ i = 1 \/ i = 2 \/ i = 3 \/ i = 4 \/ i = 5) as [I|[I|[I|[I|[I|I]]]]] by lia; subst; dc_word.
    + vm_compute. discriminate.
    + exists lj, o. split; [exact E|].
      pose proof (A 0 0 ltac:(lia) ltac:(lia)) as A0. pose proof (A 0 1 ltac:(lia) ltac:(lia)) as A1. pose proof (A 0 2 ltac:(lia) ltac:(lia)) as A2.
      pose proof (A 0 3 ltac:(lia) ltac:(lia)) as A3. pose proof (A 0 4 ltac:(lia) ltac:(lia)) as A4. pose proof (A 0 5 ltac:(lia) ltac:(lia)) as A5.
      pose proof (A 1 0 ltac:(lia) ltac:(lia)) as A6. pose proof (A 1 1 ltac:(lia) ltac:(lia)) as A7. pose proof (A 1 2 ltac:(lia) ltac:(lia)) as A8.
      pose proof (A 1 3 ltac:(lia) ltac:(lia)) as A9. pose proof (A 1 4 ltac:(lia) ltac:(lia)) as A10. pose proof (A 1 5 ltac:(lia) ltac:(lia)) as A11.
      clear A E. change (length (zeros 12)) with 12%nat in L.
      do 12 (destruct o as [|? o]; [discriminate|]). destruct o; [|discriminate].
      vm_compute in A0, A1, A2, A3, A4, A5, A6, A7, A8, A9, A10, A11. subst. reflexivity.
Qed.

(** Hasselblad files. *)
Theorem C19_hasselblad : forall {M : Mode} lj dng c t pic w h out pad rest,
  let P := s_precision (lj_sof lj) in
  0 <= P <= 16 -> good_code debug P c -> (dng = true -> ~ In 16 (hc_syms c)) ->
  lj_table lj 0 = Ok t -> huff_new (0 :: hc_counts c) (padded (hc_syms c)) P dng = Ok t ->
  readable MSB32 (lj_buffer lj) -> stream MSB32 (lj_buffer lj) pad = hass_coded c pic w h ++ rest -> (32 <= length rest)%nat ->
  picture_of_samples pic 2 w h ->
  (forall r j i, 0 <= r < h -> 0 <= j < w -> 0 <= i < 2 -> has_word P c (hass_residual pic r j i)) ->
  0 < w <= 32767 -> 0 <= h -> Z.of_nat (length out) = 2 * w * h ->
  decode_hasselblad lj out (2 * w) = Ok (hass_samples pic w h).
Proof. exact @hasselblad_ok. Qed.
Print Assumptions C19_hasselblad.

Example C19_hasselblad_ex : forall M : Mode, exists lj,
  ljpeg_decode lj (zeros 4) 0 4 4 1 = Ok [32768; 32766; 32771; 32769].
Proof.
  intros M. destruct (new_builds (hc_counts dc_code) (hc_syms dc_code) 14 false) as [t Ht].
  - apply (dc_good debug).
  - apply (dc_good debug).
  - lia.
  - apply (dc_good debug).
  - apply (dc_good debug).
  - set (lj := mkljpeg [0; 128; 223; 26; 0; 0; 0; 0] (mksof 4 1 1 14 [mkcomp 1 0 1 1] false) 8 0 [t]). exists lj.
    refine (C19_hasselblad lj false dc_code t (fun r j i => 32768 + 3 * j - 2 * i) 2 1 (zeros 4) 32 (repeat false 47) _ _ _ _ Ht _ _ _ _ _ _ _ _).
    + cbn. lia.
    + apply dc_good.
    + discriminate.
    + reflexivity.
    + split; [repeat constructor; discriminate|]. discriminate.
    + vm_compute. reflexivity.
    + rewrite repeat_length. lia.
    + intros r j i Hr Hj Hi. unfold sample. lia.
    + intros r j i Hr Hj Hi. assert (r = 0) by lia. assert (j = 0 \/ j = 1) as [J|J] by lia; assert (i = 0 \/ i = 1) as [I|I] by lia; subst; dc_word.
    + lia.
    + lia.
    + reflexivity.
Qed.

(** If the output is not a whole number of pixels wide, decoding writes outside
    the output. *)
Theorem C19_odd_width_refuted : forall M : Mode, exists lj out, s_cps (lj_sof lj) = 2 /\ s_width (lj_sof lj) = 2 /\
  lj_pred lj = 1 /\ length out = 3%nat /\
  (exists file, ljpeg_new file = Ok lj) /\
  is_ok (ljpeg_decode lj (out ++ [0]) 0 4 4 1) = true /\
  ljpeg_decode lj out 0 3 3 1 = Panic.
Proof. exact odd_width. Qed.
Print Assumptions C19_odd_width_refuted.

(** ** C20: whole files *)

(** A file made of tables, headers and the stuffed entropy-coded data of a
    picture decodes to the picture, whatever bits and bytes follow the data. *)
Theorem C20_round_trip : forall {M : Mode} hs prec w h ids tables pt data tail dng csfix pic filler,
  let n := Z.of_nat (length ids) in
  let codes i := nth (Z.to_nat (nth (Z.to_nat i) tables 0)) hs (mkcode [] []) in
  let base := 2 ^ (prec - pt - 1) in
  (1 <= length hs <= 4)%nat -> Forall (good_code debug prec) hs -> (dng = true -> Forall (fun c => ~ In 16 (hc_syms c)) hs) ->
  12 <= prec <= 16 -> 0 < w < 65536 -> 0 < h < 65536 -> 0 <= pt < Z.min prec 16 ->
  2 <= n <= 4 -> NoDup ids -> length tables = length ids -> Forall (fun t => 0 <= t < Z.of_nat (length hs)) tables ->
  (csfix = true -> ids = upto n) ->
  bytes data -> bytes tail -> last (217 :: tail) 0 <> 255 -> 4 <= Z.of_nat (length (stuff data ++ [255; 217] ++ tail)) < 2 ^ 64 ->
  picture_of_samples pic n w h -> codable prec codes n base pic w h ->
  bits_of data = coded codes n base pic w h ++ filler ->
  exists lj, ljpeg_new_full (jpeg_file hs prec w h ids tables pt data tail) dng csfix = Ok lj /\
    lj_width lj = n * w /\ lj_height lj = h /\
    forall out x stride w' h', 0 < w' <= w -> 0 < h' <= h -> 0 <= x -> x + n * w' <= stride ->
      (h' - 1) * stride + x + n * w' <= Z.of_nat (length out) -> (n = 4 -> x = 0 /\ stride = n * w') ->
      exists out', ljpeg_decode lj out x stride (n * w') h' = Ok out' /\ pasted n x stride w' h' pic out out'.
Proof. exact @file_round_trip. Qed.
Print Assumptions C20_round_trip.

(** A file of 2 x 2 pixels of two components. *)
Definition ex_pic : picture := fun r j i => 8192 + r + 2 * j - 3 * i.
Example C20_round_trip_ex : forall M : Mode,
  exists lj, ljpeg_new_full (jpeg_file [dc_code] 14 2 2 [1; 2] [0; 0] 0 [24; 231; 42; 185; 223] []) false false = Ok lj /\
  exists out', ljpeg_decode lj (zeros 8) 0 4 4 2 = Ok out' /\ pasted 2 0 4 2 2 ex_pic (zeros 8) out'.
Proof.
  intros M.
  destruct (C20_round_trip [dc_code] 14 2 2 [1; 2] [0; 0] 0 [24; 231; 42; 185; 223] [] false false ex_pic [true; true; true; true; true])
    as [lj [E [_ [_ H]]]].
  - ncomp.
  - constructor; [apply dc_good|constructor].
  - discriminate.
  - zcomp.
  - zcomp.
  - zcomp.
  - zcomp.
  - zcomp.
  - repeat constructor; cbn [In]; lia.
  - reflexivity.
  - repeat constructor; cbn [length]; lia.
  - discriminate.
  - repeat constructor; discriminate.
  - constructor.
  - discriminate.
  - zcomp.
  - intros r j i Hr Hj Hi. unfold ex_pic, sample. cbn [length] in Hi. lia.
  - intros r j i Hr Hj Hi. cbn [length] in Hi.
    assert (r = 0 \/ r = 1) as [R|R] by lia; assert (j = 0 \/ j = 1) as [J|J] by lia; assert (i = 0 \/ i = 1) as [I|I] by lia; subst; dc_word.
  - vm_compute. reflexivity.
  - exists lj. split; [exact E|]. apply (H (zeros 8) 0 4 2 2); cbn [length]; try lia. apply Z.leb_le. reflexivity.
Qed.

(** With four components the distance between rows that the caller asks for is
    not respected. *)
Theorem C20_four_components_refuted : forall M : Mode, exists file lj pic out out',
  ljpeg_new file = Ok lj /\ lj_width lj = 4 /\ lj_height lj = 2 /\
  (exists out'', ljpeg_decode lj (zeros 8) 0 4 4 2 = Ok out'' /\ pasted 4 0 4 1 2 pic (zeros 8) out'') /\
  ljpeg_decode lj out 0 8 4 2 = Ok out' /\ ~ pasted 4 0 8 1 2 pic out out'.
Proof. exact four_components. Qed.
Print Assumptions C20_four_components_refuted.

(** Bytes between two segments of a file are skipped up to the next marker. *)
Theorem C20_next_marker : forall buf pos p, 0 <= pos <= p -> marker_at buf p ->
  (forall q, pos <= q < p -> ~ marker_at buf q) -> bs_skip_to_marker buf pos = Ok (p + 1).
Proof. exact next_marker_found. Qed.
Print Assumptions C20_next_marker.
Example C20_next_marker_example : bs_skip_to_marker [7; 255; 0; 255; 255; 218; 1] 0 = Ok 5.
Proof.
  apply (C20_next_marker _ 0 4); [lia|repeat split; discriminate|].
  intros q Hq [H0 [H1 H2]]. assert (q = 0 \/ q = 1 \/ q = 2 \/ q = 3) as [E|[E|[E|E]]] by lia; subst q; vm_compute in H0, H1, H2; first [discriminate|exact (H1 eq_refl)|exact (H2 eq_refl)].
Qed.
