(** Property C47: formats that code each pixel as its difference from a
    prediction give back the picture that was coded. *)
From Coq Require Import String ZArith List Bool Lia.
From Verif Require Import Base Pumps Huffman Tiff Decoder Dec_Pred Dec_Nef
  Spec_Bits Spec_Stream Spec_Image Spec_Huffman Spec_Ljpeg Spec_Pred Spec_Curve Spec_Nikon P_Pred2 P_Pred4 P_Pred5 P_Pred6 P_Pred9.
Import ListNotations.
Local Open Scope Z_scope.

(** ** Pentax *)

(** Files without a code table: every picture of even width whose differences
    are below 4096. *)
Theorem C47_pentax : forall {M : Mode} tiff src w h pic rest, find_entry tiff T_PefHuffman = None ->
  0 < w -> Z.even w = true -> 0 <= h -> sample_picture pic w h ->
  (forall r c, 0 <= r < h -> 0 <= c < w -> Z.abs (step_of (fun _ _ => 0) pic r c) < 4096) ->
  readable MSB src -> stream MSB src 0 = steps_coded (fun _ => code_of pentax_code) (fun _ _ => 0) pic w h ++ rest -> (32 <= length rest)%nat ->
  exists out, pef_decompress tiff src w h = Ok out /\ is_image out w h pic.
Proof. exact @pef_builtin. Qed.
Print Assumptions C47_pentax.

(** Files with a code table of their own. *)
Theorem C47_pentax_own_table : forall {M : Mode} tiff src w h pic rest en c depth number twelve more,
  find_entry tiff T_PefHuffman = Some en -> e_data en = pentax_note (i_endian tiff) c depth number twelve more ->
  pentax_table c depth -> 0 <= number < 65536 -> (number + 12) mod 16 = depth -> length twelve = 12%nat ->
  0 < w -> Z.even w = true -> 0 <= h -> sample_picture pic w h ->
  (forall r j, 0 <= r < h -> 0 <= j < w -> Z.of_nat (category (step_of (fun _ _ => 0) pic r j)) < depth) ->
  readable MSB src -> stream MSB src 0 = steps_coded (fun _ => code_of c) (fun _ _ => 0) pic w h ++ rest -> (32 <= length rest)%nat ->
  exists out, pef_decompress tiff src w h = Ok out /\ is_image out w h pic.
Proof. exact @pef_own_table. Qed.
Print Assumptions C47_pentax_own_table.

(** No picture of odd width is ever decoded. *)
Theorem C47_pentax_odd_refuted : forall {M : Mode} tiff src w h out, Z.odd w = true -> 0 < w -> 0 < h ->
  pef_decompress tiff src w h <> Ok out.
Proof. exact @pentax_odd. Qed.
Print Assumptions C47_pentax_odd_refuted.

(** ** Samsung, second compression *)

Theorem C47_samsung2 : forall {M : Mode} w h pic, sample_picture pic w h ->
  (forall r c, 0 <= r < h -> 0 <= c < w -> (category (step_of (fun _ _ => 0%Z) pic r c) <= 13)%nat) -> 2 <= w -> 0 <= h ->
  forall buf rest, readable MSB buf ->
  stream MSB buf 0 = steps_coded (fun _ => samsung_code) (fun _ _ => 0) pic w h ++ rest -> (10 <= length rest)%nat ->
  exists out, decode_srw2 buf w h = Ok out /\ is_image out w h pic.
Proof. exact @srw2_ok. Qed.
Print Assumptions C47_samsung2.

(** ** Nikon *)

(** The decoder gives the picture that was coded, after the curve of the file
    and with the noise of the format.  [nikon_second] is the row from which on a
    second table is used: files with such a row inside the picture are excluded. *)
Theorem C47_nikon_partial : forall {M : Mode} tiff d en e (bits14 : bool) v0 v1 skipped x1 x2 x3 x4 points more curve src w h pic rest,
  let note := nikon_note e v0 v1 skipped x1 x2 x3 x4 points more in
  let start := nikon_start x1 x2 x3 x4 in
  let bps := if bits14 then 14 else 12 in
  fetch_ifd tiff T_NefMeta1 = Ok d -> i_endian d = e ->
  find_entry d T_NefMeta2 = Some en \/ find_entry d T_NefMeta2 = None /\ fetch_tag d T_NefMeta1 = Ok en -> e_data en = note -> bytes note ->
  Z.of_nat (length skipped) = nikon_skipped v0 v1 -> sample x1 -> sample x2 -> sample x3 -> sample x4 -> samples points -> Z.of_nat (length points) < 65536 ->
  nikon_curve v0 v1 bps points curve -> increasing curve -> not_too_steep curve ->
  (v0 = 68 -> v1 = 32 -> 564 <= Z.of_nat (length note)) -> nikon_second e v0 v1 note = 0 \/ h <= nikon_second e v0 v1 note ->
  0 < w -> Z.even w = true -> 0 <= h ->
  (forall r c, 0 <= r < h -> 0 <= c < w -> 0 <= pic r c < Z.of_nat (length curve) /\ Z.abs (step_of start pic r c) < 2 ^ bps) ->
  readable MSB src -> stream MSB src 0 = steps_coded (fun _ => code_of (nikon_code bits14 (v0 =? 70))) start pic w h ++ rest -> (32 <= length rest)%nat ->
  exists out, nef_decompress tiff src w h bps = Ok out /\
    is_image out w h (toned_picture curve pic w (number (firstn 24 (stream MSB src 0)))).
Proof. exact @nikon_ok. Qed.
Print Assumptions C47_nikon_partial.
(** The noise moves a value by at most a quarter of the span of the curve. *)
Theorem C47_nikon_near : forall curve v noise, increasing curve -> samples curve -> 0 <= v < Z.of_nat (length curve) -> 0 <= noise ->
  near curve v (toned curve v noise).
Proof. exact toned_near. Qed.
Print Assumptions C47_nikon_near.
(** Without a curve, the pixel is the one that was coded, or one below. *)
Theorem C47_nikon_lossless_partial : forall n v noise, 0 <= v < n -> n <= 65536 -> 0 <= noise ->
  toned (upto n) v noise = if (v =? 0) || (v =? n - 1) then v else if noise mod 2048 <? 1536 then v - 1 else v.
Proof. exact toned_upto. Qed.
Print Assumptions C47_nikon_lossless_partial.

(** No picture of odd width is ever decoded. *)
Theorem C47_nikon_odd_refuted : forall {M : Mode} tiff src w h bps out, Z.odd w = true -> 0 < w -> 0 < h ->
  nef_decompress tiff src w h bps <> Ok out.
Proof. exact @nikon_odd_width. Qed.
Print Assumptions C47_nikon_odd_refuted.

(** A picture with two rows of four pixels. *)
Definition ex_picture (r c : Z) : Z := nth (Z.to_nat (4 * r + c)) [100; 2000; 101; 1990; 90; 2003; 94; 2003] 0.
Ltac each_pixel := intros r c Hr Hc; assert (r = 0 \/ r = 1) as [E|E] by lia; assert (c = 0 \/ c = 1 \/ c = 2 \/ c = 3) as [E'|[E'|[E'|E']]] by lia; subst r c.
Lemma ex_samples : sample_picture ex_picture 4 2.
Proof. each_pixel; split; vm_compute; first [reflexivity|discriminate]. Qed.

Example C47_pentax_example : forall M : Mode, exists out,
  pef_decompress (mkifd [] [] 0 0 true) [251; 39; 253; 244; 53; 95; 173; 127; 223; 76; 158; 0; 0; 0; 0; 0] 4 2 = Ok out /\ is_image out 4 2 ex_picture.
Proof.
  intros M. apply (C47_pentax _ _ 4 2 ex_picture (repeat false 40)).
  - reflexivity.
  - lia.
  - reflexivity.
  - lia.
  - exact ex_samples.
  - each_pixel; vm_compute; reflexivity.
  - split; [repeat constructor; unfold byte; lia|discriminate].
  - vm_compute. reflexivity.
  - apply Nat.leb_le. reflexivity.
Qed.
Definition ex_table : hcode := mkcode [1;1;1;1;1;1;1;1;1;1;1;2;0;0;0;0] [0;1;2;3;4;5;6;7;8;9;10;11;12].
Definition ex_note : entry := mkentry 0x220 7 53 0 0 (pentax_note true ex_table 13 1 (repeat 0 12) []) true.
Example C47_pentax_own_table_example : forall M : Mode, exists out,
  pef_decompress (mkifd [(0x220, ex_note)] [] 0 0 true) [254; 201; 255; 223; 66; 249; 127; 173; 127; 247; 211; 232; 0; 0; 0; 0] 4 2 = Ok out /\ is_image out 4 2 ex_picture.
Proof.
  intros M. apply (C47_pentax_own_table _ _ 4 2 ex_picture (repeat false 32) ex_note ex_table 13 1 (repeat 0 12) []).
  - reflexivity.
  - reflexivity.
  - split; [|split; [|split; [|split; [|split]]]].
    + split; [reflexivity|split; [|split]].
      * apply Forall_forall; intros x Hx; cbn in Hx; lia.
      * apply Nat.leb_le. reflexivity.
      * vm_compute. discriminate.
    + reflexivity.
    + reflexivity.
    + repeat constructor; cbn; lia.
    + apply Forall_forall; intros x Hx; cbn in Hx; lia.
    + apply Forall_forall; intros x Hx; vm_compute in Hx; intuition (subst; lia).
  - lia.
  - reflexivity.
  - reflexivity.
  - lia.
  - reflexivity.
  - lia.
  - exact ex_samples.
  - each_pixel; vm_compute; reflexivity.
  - split; [repeat constructor; unfold byte; lia|discriminate].
  - vm_compute. reflexivity.
  - apply Nat.leb_le. reflexivity.
Qed.
Example C47_samsung2_example : forall M : Mode, exists out,
  decode_srw2 [57; 53; 223; 67; 112; 166; 214; 187; 233; 228; 208; 0; 0; 0; 0; 0] 4 2 = Ok out /\ is_image out 4 2 ex_picture.
Proof.
  intros M. apply (C47_samsung2 4 2 ex_picture ex_samples) with (rest := repeat false 42).
  - each_pixel; apply Nat.leb_le; vm_compute; reflexivity.
  - lia.
  - lia.
  - split; [repeat constructor; unfold byte; lia|discriminate].
  - vm_compute. reflexivity.
  - apply Nat.leb_le. reflexivity.
Qed.

(** A file without loss whose two pixels, both 1000, become 999 and something
    else than the code says: the compression is not undone exactly. *)
Definition lossless_note : entry := mkentry T_NefMeta1 7 12 0 0 (nikon_note true 70 48 [] 1000 1000 1000 1000 [] []) true.
Definition lossless_bytes : list Z := [247; 128; 0; 0; 0; 0; 0; 0].
Theorem C47_nikon_lossless_refuted : forall M : Mode, exists pic out rest, (forall r c, pic r c = 1000) /\
  stream MSB lossless_bytes 0 = steps_coded (fun _ => code_of (nikon_code false true)) (nikon_start 1000 1000 1000 1000) pic 2 1 ++ rest /\
  nef_decompress (mkifd [(T_NefMeta1, lossless_note)] [] 0 0 true) lossless_bytes 2 1 12 = Ok out /\ nth 0 out 0 = 999 /\ ~ is_image out 2 1 pic.
Proof. exact lossless_wrong. Qed.
Print Assumptions C47_nikon_lossless_refuted.

(** A file with a curve of eleven points. *)
Definition ex_curve : list Z := [0; 1; 4; 9; 16; 25; 36; 49; 64; 81; 100].
Definition ex_indices (r c : Z) : Z := nth (Z.to_nat (4 * r + c)) [1; 5; 2; 6; 3; 7; 4; 10] 0.
Definition curve_note : entry := mkentry T_NefMeta2 7 34 0 0 (nikon_note false 68 16 [] 1 2 3 4 ex_curve []) false.
Lemma ex_curve_cases : forall i, 0 <= i < 11 -> i = 0 \/ i = 1 \/ i = 2 \/ i = 3 \/ i = 4 \/ i = 5 \/ i = 6 \/ i = 7 \/ i = 8 \/ i = 9 \/ i = 10.
Proof. intros. lia. Qed.
Example C47_nikon_example : forall M : Mode, exists out,
  nef_decompress (mkifd [(T_NefMeta1, curve_note); (T_NefMeta2, curve_note)] [] 0 0 false) [251; 175; 125; 247; 191; 123; 0; 0; 0; 0; 0; 0; 0; 0; 0; 0] 4 2 14 = Ok out /\
  is_image out 4 2 (toned_picture ex_curve ex_indices 4 16494461).
Proof.
  intros M. refine (C47_nikon_partial (mkifd [(T_NefMeta1, curve_note); (T_NefMeta2, curve_note)] [] 0 0 false) _ curve_note false true 68 16 [] 1 2 3 4 ex_curve []
    ex_curve [251; 175; 125; 247; 191; 123; 0; 0; 0; 0; 0; 0; 0; 0; 0; 0] 4 2 ex_indices (repeat false 80) eq_refl eq_refl (or_introl eq_refl) eq_refl _ eq_refl _ _ _ _ _ _ _ _ _ _ _ _ _ _ _ _ _ _).
  - apply Forall_forall. intros x Hx. cbn in Hx. unfold byte. lia.
  - unfold sample. lia.
  - unfold sample. lia.
  - unfold sample. lia.
  - unfold sample. lia.
  - apply Forall_forall. intros x Hx. cbn in Hx. unfold sample. lia.
  - reflexivity.
  - right. left. repeat split; try lia. vm_compute. discriminate.
  - intros i j Hi Hj. change (Z.of_nat (length ex_curve)) with 11 in Hj.
    destruct (ex_curve_cases i ltac:(lia)) as [-> |[-> |[-> |[-> |[-> |[-> |[-> |[-> |[-> |[-> | ->]]]]]]]]]];
    destruct (ex_curve_cases j ltac:(lia)) as [-> |[-> |[-> |[-> |[-> |[-> |[-> |[-> |[-> |[-> | ->]]]]]]]]]]; vm_compute; first [discriminate|lia].
  - intros i Hi _. change (Z.of_nat (length ex_curve)) with 11 in Hi.
    destruct (ex_curve_cases i ltac:(lia)) as [-> |[-> |[-> |[-> |[-> |[-> |[-> |[-> |[-> |[-> | ->]]]]]]]]]]; vm_compute; split; first [discriminate|reflexivity].
  - intros _ H. discriminate H.
  - left. reflexivity.
  - lia.
  - reflexivity.
  - lia.
  - each_pixel; (split; [split; vm_compute; first [discriminate|reflexivity]|vm_compute; reflexivity]).
  - split; [repeat constructor; unfold byte; lia|discriminate].
  - vm_compute. reflexivity.
  - apply Nat.leb_le. reflexivity.
Qed.
