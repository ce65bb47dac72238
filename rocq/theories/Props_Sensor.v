(** Properties C31 to C35: encrypted, turned, interlaced, reordered and cut up
    pictures. *)
From Coq Require Import String ZArith List Bool Lia.
From Verif Require Import Base Pumps Arw Raf Mos Cr2 Spec_Bits Spec_Stream Spec_Image Spec_Huffman Spec_Sensor
  P_Base P_Sensor1 P_Sensor2 P_Sensor3 P_Sensor4 P_Sensor6.
Import ListNotations.
Local Open Scope Z_scope.

(** ** C31: Sony decryption *)

(** Each word of the result is the word of the file combined by exclusive or
    with the next word of the key stream. *)
Theorem C31_stream_cipher : forall buf offset length key s out, bytes buf -> 0 <= offset -> 0 <= length ->
  sony_sequence key s -> sony_decrypt buf offset length key = Ok out ->
  bytes out /\ Z.of_nat (List.length out) = 4 * (length / 4 + 1) /\
  forall i : nat, 4 * Z.of_nat i < Z.of_nat (List.length out) ->
    word_at out (4 * Z.of_nat i) = Z.lxor (word_at buf (offset + 4 * Z.of_nat i)) (s (i + 127)%nat).
Proof. exact decrypt_words. Qed.
Print Assumptions C31_stream_cipher.

(** Every key has exactly one sequence. *)
Theorem C31_sequence_exists : forall key, exists s, sony_sequence key s.
Proof. exact sequence_exists. Qed.
Print Assumptions C31_sequence_exists.
Theorem C31_sequence_unique : forall key s s', sony_sequence key s -> sony_sequence key s' -> forall n, s n = s' n.
Proof. exact sequence_unique. Qed.
Print Assumptions C31_sequence_unique.

(** Decryption succeeds exactly when the file has enough bytes. *)
Theorem C31_total : forall buf offset length key, bytes buf -> 0 <= offset -> 0 <= length ->
  offset + 4 * (length / 4 + 1) <= Z.of_nat (List.length buf) -> exists out, sony_decrypt buf offset length key = Ok out.
Proof. exact decrypt_total. Qed.
Print Assumptions C31_total.
Theorem C31_enough : forall buf offset length key out, 0 <= length ->
  sony_decrypt buf offset length key = Ok out -> offset + 4 * (length / 4 + 1) <= Z.of_nat (List.length buf).
Proof. exact decrypt_enough. Qed.
Print Assumptions C31_enough.

(** Decrypting twice gives back the bytes of the file. *)
Theorem C31_involution : forall buf offset length key out, bytes buf -> 0 <= offset -> 0 <= length ->
  sony_decrypt buf offset length key = Ok out ->
  sony_decrypt out 0 length key = Ok (firstn (Z.to_nat (4 * (length / 4 + 1))) (skipn (Z.to_nat offset) buf)).
Proof. exact decrypt_twice. Qed.
Print Assumptions C31_involution.

Example C31_example : exists out, sony_decrypt [9; 1; 2; 3; 4; 5; 6; 7; 8] 1 7 123456789 = Ok out /\
  sony_decrypt out 0 7 123456789 = Ok [1; 2; 3; 4; 5; 6; 7; 8].
Proof.
  destruct (C31_total [9; 1; 2; 3; 4; 5; 6; 7; 8] 1 7 123456789) as [out E]; [repeat constructor; unfold byte; lia|lia|lia|vm_compute; discriminate|].
  exists out. split; [exact E|].
  rewrite (C31_involution [9; 1; 2; 3; 4; 5; 6; 7; 8] 1 7 123456789 out); [reflexivity|repeat constructor; unfold byte; lia|lia|lia|exact E].
Qed.

(** ** C32: Fuji rotation *)

(** The picture without its borders is turned: pixel (r, c) goes to the place
    given by [turned], and every other place is 0.  Without the alternative hint
    the cropped height must be even. *)
Theorem C32_rotation : forall {M : Mode} src width height top right_ bottom left_,
  let cw := width - right_ - left_ in let ch := height - bottom - top in
  0 <= top /\ 0 <= right_ /\ 0 <= bottom /\ 0 <= left_ -> 0 < cw -> 0 < ch -> width < 2 ^ 62 /\ height < 2 ^ 62 ->
  Z.of_nat (length src) = width * height -> Z.even ch = true ->
  exists img, rotate_image src false (top, right_, bottom, left_) width height = Ok (cw + ch / 2, cw + ch / 2 - 1, img) /\
    placed img (cw + ch / 2) (cw + ch / 2 - 1) cw ch (turned cw)
      (fun r c => nth (Z.to_nat ((r + top) * width + (c + left_))) src 0).
Proof. exact @rotate_normal_ok. Qed.
Print Assumptions C32_rotation.
(** With it the cropped width must be even. *)
Theorem C32_rotation_alt : forall {M : Mode} src width height top right_ bottom left_,
  let cw := width - right_ - left_ in let ch := height - bottom - top in
  0 <= top /\ 0 <= right_ /\ 0 <= bottom /\ 0 <= left_ -> 0 < cw -> 0 < ch -> width < 2 ^ 62 /\ height < 2 ^ 62 ->
  Z.of_nat (length src) = width * height -> Z.even cw = true ->
  exists img, rotate_image src true (top, right_, bottom, left_) width height = Ok (ch + cw / 2, ch + cw / 2 - 1, img) /\
    placed img (ch + cw / 2) (ch + cw / 2 - 1) cw ch (turned_alt cw)
      (fun r c => nth (Z.to_nat ((r + top) * width + (c + left_))) src 0).
Proof. exact @rotate_alt_ok. Qed.
Print Assumptions C32_rotation_alt.

(** No two pixels go to the same place, so none is lost. *)
Theorem C32_one_to_one : forall cw ch, one_to_one cw ch (turned cw).
Proof. exact turned_inj. Qed.
Print Assumptions C32_one_to_one.
Theorem C32_one_to_one_alt : forall cw ch, one_to_one cw ch (turned_alt cw).
Proof. exact turned_alt_inj. Qed.
Print Assumptions C32_one_to_one_alt.

(** Neighbours stay neighbours: the directions of the sensor become diagonals. *)
Theorem C32_diagonals : forall cw r c, let move p dy dx := (fst p + dy, snd p + dx) in
  turned cw r (c + 1) = move (turned cw r c) (-1) 1 /\
  turned cw (r + 2) c = move (turned cw r c) 1 1 /\
  turned cw (r + 1) c = (if Z.even r then move (turned cw r c) 0 1 else move (turned cw r c) 1 0) /\
  turned_alt cw (r + 1) c = move (turned_alt cw r c) 1 1 /\
  turned_alt cw r (c + 2) = move (turned_alt cw r c) (-1) 1 /\
  turned_alt cw r (c + 1) = (if Z.even c then move (turned_alt cw r c) 0 1 else move (turned_alt cw r c) (-1) 0).
Proof. exact diagonals. Qed.
Print Assumptions C32_diagonals.

(** A picture of 4 x 4 pixels without its left column and last two rows. *)
Example C32_example : exists img, forall M : Mode,
  rotate_image [0; 1; 2; 3; 0; 4; 5; 6; 0; 0; 0; 0; 0; 0; 0; 0] false (0, 0, 2, 1) 4 4 = Ok (4, 3, img) /\
  img = [0; 0; 3; 6;   0; 2; 5; 0;   1; 4; 0; 0].
Proof. eexists. intros [|]; (split; [|reflexivity]); vm_compute; reflexivity. Qed.

(** An odd height, or with the alternative hint an odd width, makes the decoder
    panic. *)
Theorem C32_odd_refuted : forall M : Mode, exists src width height,
  Z.of_nat (length src) = width * height /\ 0 < width /\ 0 < height /\
  rotate_image src false (0, 0, 0, 0) width height = Panic.
Proof. exact odd_height. Qed.
Print Assumptions C32_odd_refuted.
Theorem C32_odd_alt_refuted : forall M : Mode, exists src width height,
  Z.of_nat (length src) = width * height /\ 0 < width /\ 0 < height /\
  rotate_image src true (0, 0, 0, 0) width height = Panic.
Proof. exact odd_width. Qed.
Print Assumptions C32_odd_alt_refuted.

(** ** C33: interlaced lines *)

(** If line [i] of the data is line [interlaced h i] of a picture, the result is
    the picture. *)
Theorem C33_interlace : forall {M : Mode} data w h pix, 0 < w -> 0 <= h < 2 ^ 63 ->
  is_image data w h (fun i c => pix (interlaced h i) c) ->
  exists out, mos_interlace data w h = Ok out /\ is_image out w h pix.
Proof. exact @interlace_ok. Qed.
Print Assumptions C33_interlace.
(** The lines are permuted: each line of the picture is the place of exactly one
    line of the data. *)
Theorem C33_permutation : forall h r, 0 <= r < h -> exists i, (0 <= i < h /\ interlaced h i = r) /\
  forall j, 0 <= j < h -> interlaced h j = r -> j = i.
Proof. exact interlaced_permutation. Qed.
Print Assumptions C33_permutation.
Example C33_example : mos_interlace (M := true) [1; 1; 5; 5; 2; 2; 4; 4; 3; 3] 2 5 = Ok [1; 1; 2; 2; 3; 3; 4; 4; 5; 5].
Proof. vm_compute. reflexivity. Qed.
Example C33_example_applies : is_image [1; 1; 5; 5; 2; 2; 4; 4; 3; 3] 2 5 (fun i c => interlaced 5 i + 1).
Proof.
  split; [reflexivity|]. intros r c Hr Hc.
  assert (r = 0 \/ r = 1 \/ r = 2 \/ r = 3 \/ r = 4) as [E|[E|[E|[E|E]]]] by lia; subst r;
  assert (c = 0 \/ c = 1) as [E|E] by lia; subst c; reflexivity.
Qed.

(** ** C34: the order of the first Sony format *)

(** The data of a picture - the differences between one pixel and the next, in
    the order of the format - decode to the picture, taken modulo 65536. *)
Theorem C34_arw1 : forall {M : Mode} buf pad w h val rest, bytes buf -> readable MSB buf -> 0 < w -> 0 < h -> Z.even h = true ->
  (forall r c, 0 <= r < h -> 0 <= c < w -> Z.abs (val r c) <= 2 ^ 30) ->
  let ds := differences 0 (map (fun rc => val (fst rc) (snd rc)) (arw1_order w h)) in
  Forall (fun d => (category d <= 17)%nat) ds ->
  stream MSB buf pad = flat_map arw1_code ds ++ rest -> (13 <= length rest)%nat ->
  exists out, decode_arw1 buf w h = Ok out /\ is_image out w h (fun r c => val r c mod 65536).
Proof. exact @arw1_ok. Qed.
Print Assumptions C34_arw1.
(** The order visits every pixel, and none twice. *)
Theorem C34_every_pixel : forall w h r c, Z.even h = true -> In (r, c) (arw1_order w h) <-> 0 <= r < h /\ 0 <= c < w.
Proof. exact order_all. Qed.
Print Assumptions C34_every_pixel.
Theorem C34_once : forall w h, NoDup (arw1_order w h).
Proof. exact order_once. Qed.
Print Assumptions C34_once.

Example C34_example : forall M : Mode, exists out, decode_arw1 [7; 39; 144; 0; 63; 243; 128; 0; 0; 0; 0; 0] 2 2 = Ok out /\
  is_image out 2 2 (fun r c => nth (Z.to_nat (2 * r + c)) [99; 100; 65535; 101] 0 mod 65536).
Proof.
  intros M. eapply (C34_arw1 _ 0).
  - repeat constructor; unfold byte; lia.
  - split; [repeat constructor; unfold byte; lia|discriminate].
  - lia.
  - lia.
  - reflexivity.
  - intros r c Hr Hc. assert (r = 0 \/ r = 1) as [E|E] by lia; assert (c = 0 \/ c = 1) as [E'|E'] by lia; subst; vm_compute; discriminate.
  - repeat constructor; vm_compute; lia.
  - vm_compute. reflexivity.
  - vm_compute. lia.
Qed.

(** With an odd number of rows every second row stays 0, and without rows the
    decoder panics. *)
Theorem C34_odd_refuted : forall M : Mode, exists buf out, decode_arw1 buf 1 3 = Ok out /\ out = [1; 0; 1] /\
  exists rest, stream MSB buf 0 = flat_map arw1_code (differences 0 [1; 1; 1]) ++ rest /\ (13 <= length rest)%nat.
Proof. exact @odd_rows. Qed.
Print Assumptions C34_odd_refuted.
Theorem C34_no_rows_refuted : forall (M : Mode) w, 0 < w -> decode_arw1 (repeat 0 8) w 0 = Panic.
Proof. exact @no_rows. Qed.
Print Assumptions C34_no_rows_refuted.

(** ** C35: stripes *)

(** Data that hold pictures one after the other become the pictures side by
    side.  The widths in the file are divided by the horizontal subsampling and
    multiplied by the number of components. *)
Theorem C35_stripes : forall parts datas after width h sh cpp fws,
  sh <> 0 -> 0 <= h -> 0 <= width ->
  Forall2 (fun p d => 0 <= fst p /\ is_image d (fst p) h (snd p)) parts datas ->
  map (fun f => f / sh * cpp) fws = map fst parts -> total_width parts <= width ->
  exists out, stripes_v1 (concat datas ++ after) width h sh cpp fws = Ok out /\ is_image out width h (side_by_side parts).
Proof. exact stripes_v1_ok. Qed.
Print Assumptions C35_stripes.
Example C35_example : exists out, stripes_v1 ([1; 2; 5; 6] ++ [3; 7] ++ []) 3 2 1 1 [2; 1] = Ok out /\
  out = [1; 2; 3; 5; 6; 7].
Proof. eexists. split; [|reflexivity]. vm_compute. reflexivity. Qed.
Example C35_example_applies : Forall2 (fun p d => 0 <= fst p /\ is_image d (fst p) 2 (snd p))
  [(2, fun r c => 4 * r + c + 1); (1, fun r c => 4 * r + c + 3)] [[1; 2; 5; 6]; [3; 7]].
Proof.
  repeat constructor; try discriminate; intros r c Hr Hc; cbn [fst snd] in *;
  assert (r = 0 \/ r = 1) as [E|E] by lia; assert (c = 0 \/ c = 1) as [E'|E'] by lia; subst; try reflexivity; lia.
Qed.

(** With vertical subsampling the data are read two lines at a time. *)
Theorem C35_two_lines : forall {M : Mode} data pix lw lh width h fw nf T H2 L3 lh2,
  lw = 3 * L3 -> fw = 3 * T -> h = 2 * H2 -> 0 < L3 -> 0 < T -> 0 <= H2 -> 0 <= nf -> nf * fw <= width ->
  is_image data lw lh pix -> 2 * lh2 <= lh -> nf * H2 * T <= lh2 * L3 ->
  forall fws, Z.of_nat (length fws) = nf -> get fws 0 = Ok fw ->
  exists out, stripes_v2 data lw width h fws = Ok out /\ is_image out width h (two_line_stripes pix lw fw nf h).
Proof. exact @stripes_v2_two_lines. Qed.
Print Assumptions C35_two_lines.
(** Three lines pairs of two pixels each become two stripes of one pixel. *)
Example C35_two_lines_example : forall M : Mode,
  stripes_v2 [1; 1; 1; 2; 2; 2;   11; 11; 11; 12; 12; 12;   3; 3; 3; 4; 4; 4;   13; 13; 13; 14; 14; 14] 6 6 4 [3; 3] =
  Ok [1; 1; 1; 3; 3; 3;   11; 11; 11; 13; 13; 13;   2; 2; 2; 4; 4; 4;   12; 12; 12; 14; 14; 14].
Proof. intros M. vm_compute. reflexivity. Qed.

(** Every stripe is taken to be as wide as the first, even if the file says that
    the last one is wider. *)
Theorem C35_last_stripe_refuted : forall M : Mode, exists data fws out,
  stripes_v2 data 9 9 2 fws = Ok out /\ fws = [3; 6] /\
  data = [1; 1; 1; 2; 2; 2; 3; 3; 3;   4; 4; 4; 5; 5; 5; 6; 6; 6] /\ out <> data.
Proof. exact last_stripe. Qed.
Print Assumptions C35_last_stripe_refuted.
