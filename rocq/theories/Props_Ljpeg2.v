(** Property C20: whole lossless JPEG files with subsampled colour, and of Hasselblad. *)
From Coq Require Import String ZArith List Bool Lia.
From Verif Require Import Base Pumps Huffman ByteStream Ljpeg Spec_Bits Spec_Pump Spec_Stream Spec_Huffman Spec_Ljpeg
  P_Huff6 P_Ljpeg7 P_Ljpeg13.
Import ListNotations.
Local Open Scope Z_scope.

(** A file whose first component has twice the samples of the others in a row
    (4:2:2, [v] = 1), or in rows and columns (4:2:0, [v] = 2), decodes to the
    picture with the colour samples repeated, whatever follows the data. *)
Theorem C20_subsampled_file : forall {M : Mode} hs prec v w h id1 id2 id3 s2 s3 tables predictor pt data tail dng csfix pic filler,
  let comps := [(id1, (2, v)); (id2, s2); (id3, s3)] in
  let codes i := nth (Z.to_nat (nth (Z.to_nat i) tables 0)) hs (mkcode [] []) in
  let base := 2 ^ (prec - pt - 1) in
  v = 1 \/ v = 2 ->
  (1 <= length hs <= 4)%nat -> Forall (good_code debug prec) hs -> (dng = true -> Forall (fun c => ~ In 16 (hc_syms c)) hs) ->
  12 <= prec <= 16 -> 0 < w /\ 2 * w < 65536 -> 0 < h /\ v * h < 65536 -> 0 <= pt < Z.min prec 16 ->
  Forall (fun '(_, (a, b)) => 0 <= a <= 15 /\ 0 <= b <= 15) comps ->
  NoDup [id1; id2; id3] -> length tables = 3%nat -> Forall (fun t => 0 <= t < Z.of_nat (length hs)) tables ->
  (csfix = true -> [id1; id2; id3] = upto 3) ->
  bytes data -> bytes tail -> last (217 :: tail) 0 <> 255 -> 4 <= Z.of_nat (length (stuff data ++ [255; 217] ++ tail)) < 2 ^ 64 ->
  picture_of_samples pic (2 * v + 2) w h -> sub_codable prec codes v base pic w h ->
  bits_of data = sub_coded codes v base pic w h ++ filler ->
  exists lj, ljpeg_new_full (jpeg_sampled hs prec (2 * w) (v * h) comps tables predictor pt (stuff data ++ [255; 217] ++ tail)) dng csfix = Ok lj /\
    lj_width lj = 6 * w /\ lj_height lj = v * h /\
    forall out x stride, v * h * (6 * w) <= Z.of_nat (length out) ->
      exists out', ljpeg_decode lj out x stride (6 * w) (v * h) = Ok out' /\ length out' = length out /\
        (forall R q, 0 <= R < v * h -> 0 <= q < 6 * w -> nth (Z.to_nat (R * (6 * w) + q)) out' 0 = sub_sample v pic R q) /\
        (forall q, v * h * (6 * w) <= Z.of_nat q -> nth q out' 0 = nth q out 0).
Proof. exact @sub_file. Qed.
Print Assumptions C20_subsampled_file.

(** One block of 2 x 2 pixels. *)
Definition block_pic : picture := fun r j i => 8192 + 10 * r + 3 * j - 2 * i.
Example C20_subsampled_file_ex : forall M : Mode, exists lj out',
  ljpeg_new_full (jpeg_sampled [dc_code] 14 2 2 [(1, (2, 2)); (2, (1, 1)); (3, (1, 1))] [0; 0; 0] 1 0 (stuff [26; 214; 215; 170] ++ [255; 217])) false false = Ok lj /\
  ljpeg_decode lj (zeros 12) 0 6 6 2 = Ok out' /\ nth 7 out' 0 = 8184 /\ nth 9 out' 0 = 8186.
Proof.
  intros M.
  destruct (C20_subsampled_file [dc_code] 14 2 1 1 1 2 3 (1, 1) (1, 1) [0; 0; 0] 1 0 [26; 214; 215; 170] [] false false block_pic [false]) as [lj [E [_ [_ H]]]].
  - right. reflexivity.
  - ncomp.
  - constructor; [apply dc_good|constructor].
  - discriminate.
  - zcomp.
  - lia.
  - lia.
  - zcomp.
  - repeat constructor; lia.
  - repeat constructor; cbn [In]; lia.
  - reflexivity.
  - repeat constructor; cbn [length]; lia.
  - discriminate.
  - repeat constructor; discriminate.
  - constructor.
  - discriminate.
  - zcomp.
  - intros r j i Hr Hj Hi. unfold block_pic, sample. lia.
  - intros r j i Hr Hj Hi. assert (r = 0) by lia. assert (j = 0) by lia.
    assert (i = 0 \/ i = 1 \/ i = 2 \/ i = 3 \/ i = 4 \/ i = 5) as [I|[I|[I|[I|[I|I]]]]] by lia; subst; dc_word.
  - vm_compute. reflexivity.
  - destruct (H (zeros 12) 0 6 ltac:(apply Z.leb_le; reflexivity)) as [o [E2 [_ [A _]]]].
    exists lj, o. split; [exact E|]. split; [exact E2|].
    pose proof (A 1 1 ltac:(lia) ltac:(lia)) as A1. pose proof (A 1 3 ltac:(lia) ltac:(lia)) as A3. split; [exact A1|exact A3].
Qed.

(** A file with predictor 8: pairs of samples, without stuffing. *)
Theorem C20_hasselblad_file : forall {M : Mode} hs prec w0 w h id a b comps tables pt scan dng csfix pic pad rest,
  let cs := (id, (a, b)) :: comps in
  let c := nth (Z.to_nat (nth 0 tables 0)) hs (mkcode [] []) in
  (1 <= length hs <= 4)%nat -> Forall (good_code debug prec) hs -> (dng = true -> Forall (fun c => ~ In 16 (hc_syms c)) hs) ->
  12 <= prec <= 16 -> 0 < w0 < 65536 -> 0 <= h < 65536 -> 0 <= pt < 16 -> a <> 2 ->
  (length cs <= 4)%nat -> Z.of_nat (length cs) * w0 = 2 * w -> w <= 32767 ->
  Forall (fun '(_, (a, b)) => 0 <= a <= 15 /\ 0 <= b <= 15) cs ->
  NoDup (map fst cs) -> length tables = length cs -> Forall (fun t => 0 <= t < Z.of_nat (length hs)) tables ->
  (csfix = true -> map fst cs = upto (Z.of_nat (length cs))) ->
  readable MSB32 scan -> stream MSB32 scan pad = hass_coded c pic w h ++ rest -> (32 <= length rest)%nat ->
  picture_of_samples pic 2 w h ->
  (forall r j i, 0 <= r < h -> 0 <= j < w -> 0 <= i < 2 -> has_word prec c (hass_residual pic r j i)) ->
  exists lj, ljpeg_new_full (jpeg_sampled hs prec w0 h cs tables 8 pt scan) dng csfix = Ok lj /\
    lj_width lj = 2 * w /\ lj_height lj = h /\
    forall out x stride height, Z.of_nat (length out) = 2 * w * h ->
      ljpeg_decode lj out x stride (2 * w) height = Ok (hass_samples pic w h).
Proof. exact @hass_file. Qed.
Print Assumptions C20_hasselblad_file.

Example C20_hasselblad_file_ex : forall M : Mode, exists lj,
  ljpeg_new_full (jpeg_sampled [dc_code] 14 4 1 [(1, (1, 1))] [0] 8 0 [0; 128; 223; 26; 0; 0; 0; 0]) false false = Ok lj /\
  ljpeg_decode lj (zeros 4) 0 4 4 1 = Ok [32768; 32766; 32771; 32769].
Proof.
  intros M.
  destruct (C20_hasselblad_file [dc_code] 14 4 2 1 1 1 1 [] [0] 0 [0; 128; 223; 26; 0; 0; 0; 0] false false (fun r j i => 32768 + 3 * j - 2 * i) 32 (repeat false 47)) as [lj [E [_ [_ H]]]].
  - ncomp.
  - constructor; [apply dc_good|constructor].
  - discriminate.
  - zcomp.
  - zcomp.
  - zcomp.
  - zcomp.
  - lia.
  - cbn [length]; lia.
  - reflexivity.
  - lia.
  - repeat constructor; lia.
  - repeat constructor; cbn [In]; lia.
  - reflexivity.
  - repeat constructor; cbn [length]; lia.
  - discriminate.
  - split; [repeat constructor; discriminate|]. discriminate.
  - vm_compute. reflexivity.
  - rewrite repeat_length. lia.
  - intros r j i Hr Hj Hi. unfold sample. lia.
  - intros r j i Hr Hj Hi. assert (r = 0) by lia. assert (j = 0 \/ j = 1) as [J|J] by lia; assert (i = 0 \/ i = 1) as [I|I] by lia; subst; dc_word.
  - exists lj. split; [exact E|]. exact (H (zeros 4) 0 4 1 eq_refl).
Qed.
