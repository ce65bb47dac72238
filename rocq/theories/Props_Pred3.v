(** Property C47: further formats that code each pixel as its difference from a
    prediction give back the picture that was coded. *)
From Coq Require Import ZArith List Bool Lia.
From Verif Require Import Base Pumps Decoder Dec_Pred
  Spec_Bits Spec_Stream Spec_Image Spec_Huffman Spec_Ljpeg Spec_Orf Spec_Pana P_Crw4 P_Orf2 P_Orf3 P_Pana3.
Import ListNotations.
Local Open Scope Z_scope.

(** ** Olympus *)

(** Every picture of even width and samples of at most fifteen bits whose distances
    from the running mean have fifteen bits.  The data start at byte 7. *)
Theorem C47_olympus : forall {M : Mode} pic w h, 0 < w < 2 ^ 31 -> 0 <= h -> w mod 2 = 0 ->
  (forall r c, 0 <= r < h -> 0 <= c < w -> 0 <= pic r c < 2 ^ 15) -> orf_fits pic w h ->
  forall buf rest, (7 <= length buf)%nat -> bytes buf ->
  stream MSB (skipn 7 buf) 0 = orf_coded pic w h ++ rest -> (15 <= length rest)%nat ->
  exists out, orf_decompress buf w h = Ok out /\ is_image out w h pic.
Proof. exact @orf_ok. Qed.
Print Assumptions C47_olympus.

(** Pixels are taken in pairs: whatever the data, the last column of a picture of odd
    width is black. *)
Theorem C47_olympus_odd_refuted : forall {M : Mode} w h, 0 < w -> 0 <= h -> w mod 2 = 1 ->
  forall buf out, orf_decompress buf w h = Ok out -> forall r, 0 <= r < h -> nth (Z.to_nat (r * w + (w - 1))) out 0 = 0.
Proof. exact @orf_odd. Qed.
Print Assumptions C47_olympus_odd_refuted.

Definition olympus_picture (r c : Z) : Z := 200 + (r * 37 + c * 23) mod 61 + (if (c =? 3) && (r =? 2) then 3000 else 0).
Definition olympus_data : list Z :=
  [0; 0; 0; 0; 0; 0; 0;
   2; 76; 93; 94; 226; 209; 112; 141; 128; 141; 197; 166; 202; 200; 204;
   204; 205; 128; 0; 46; 111; 133; 19; 115; 57; 191; 5; 215; 15; 0; 0;
   0; 0; 0; 0; 0].
Example C47_olympus_example : forall M : Mode, exists out, orf_decompress olympus_data 6 4 = Ok out /\ is_image out 6 4 olympus_picture.
Proof.
  intros M. apply C47_olympus with (rest := skipn 236 (stream MSB (skipn 7 olympus_data) 0)).
  - lia.
  - lia.
  - reflexivity.
  - intros r c _ _. unfold olympus_picture. pose proof (Z.mod_pos_bound (r * 37 + c * 23) 61 ltac:(lia)). destruct (_ && _); lia.
  - intros r c Hr Hc.
    assert (forall r, 0 <= r < 4 -> forallb (fun c => let '(_, mean, _) := orf_before olympus_picture r c in orf_distance mean (orf_residual olympus_picture r c) <? 2 ^ 15) (upto 6) = true) as H.
    { apply upto_all. vm_compute. reflexivity. }
    pose proof (upto_all 6 _ (H r Hr) c Hc) as Q. cbv beta in Q. destruct (orf_before olympus_picture r c) as [[a b] d]. apply Z.ltb_lt. exact Q.
  - vm_compute. lia.
  - apply Forall_forall. intros x Hx. cbn in Hx. unfold byte. lia.
  - vm_compute. reflexivity.
  - vm_compute. lia.
Qed.
(** The hypothesis of the second theorem is met. *)
Example C47_olympus_odd_example : orf_decompress (M := true) olympus_data 3 1 = Ok [200; 223; 0].
Proof. vm_compute. reflexivity. Qed.

(** ** Panasonic *)

(** Data in order: every picture whose width is a multiple of 14.  The data must be
    followed by a byte. *)
Theorem C47_panasonic : forall {M : Mode} pic w h choice byte, 0 < w -> 0 <= h -> w mod 14 = 0 ->
  (forall g, 0 <= g < w / 14 * h -> pana_group_fits (choice g) (byte g) (pana_values pic w g)) ->
  forall buf, bytes buf -> zlen buf < 2 ^ 64 -> 16 * (w / 14 * h) < zlen buf ->
  (forall g, 0 <= g < w / 14 * h -> bits_of (pana_group_bytes false buf g) = pana_group_coded (choice g) (byte g) (pana_values pic w g)) ->
  exists out, pana_decompress buf w h false = Ok out /\ is_image out w h pic.
Proof. exact @pana_ok. Qed.
Print Assumptions C47_panasonic.

(** Data in blocks of two parts: all pixels but those of the group in which the parts
    of a block meet, one group in 1024. *)
Theorem C47_panasonic_split_partial : forall {M : Mode} pic w h choice byte, 0 < w -> 0 <= h -> w mod 14 = 0 ->
  (forall g, 0 <= g < w / 14 * h -> pana_group_fits (choice g) (byte g) (pana_values pic w g)) ->
  forall buf, bytes buf -> zlen buf < 2 ^ 64 -> 16384 * ((w / 14 * h + 1023) / 1024) < zlen buf ->
  (forall g, 0 <= g < w / 14 * h -> bits_of (pana_group_bytes true buf g) = pana_group_coded (choice g) (byte g) (pana_values pic w g)) ->
  exists out, pana_decompress buf w h true = Ok out /\ zlen out = w * h /\
    forall r c, 0 <= r < h -> 0 <= c < w -> (r * w + c) / 14 mod 1024 <> 512 -> nth (Z.to_nat (r * w + c)) out 0 = pic r c.
Proof. exact @pana_split_ok. Qed.
Print Assumptions C47_panasonic_split_partial.

(** In that group a value that lies across the boundary is taken partly from the next
    block: a black picture is decoded with a pixel of 3840. *)
Theorem C47_panasonic_split_refuted : exists buf pic choice byte, bytes buf /\ zlen buf = 16385 /\
  (forall g, 0 <= g < 513 -> pana_group_fits (choice g) (byte g) (pana_values pic 14 g) /\ bits_of (pana_group_bytes true buf g) = pana_group_coded (choice g) (byte g) (pana_values pic 14 g)) /\
  pic 512 7 = 0 /\ forall M : Mode, exists out, pana_decompress buf 14 513 true = Ok out /\ nth (Z.to_nat (512 * 14 + 7)) out 0 = 3840.
Proof. exact pana_split_wrong. Qed.
Print Assumptions C47_panasonic_split_refuted.

(** A picture whose data are the last bytes of the file makes the program panic. *)
Theorem C47_panasonic_end_refuted : forall M : Mode, exists buf pic choice byte, bytes buf /\ zlen buf = 16 /\
  pana_group_fits (choice 0) (byte 0) (pana_values pic 14 0) /\ bits_of (pana_group_bytes false buf 0) = pana_group_coded (choice 0) (byte 0) (pana_values pic 14 0) /\
  pana_decompress buf 14 1 false = Panic.
Proof. exact pana_end. Qed.
Print Assumptions C47_panasonic_end_refuted.

Definition at2 (l : list (list Z)) (r c : Z) : Z := nth (Z.to_nat c) (nth (Z.to_nat r) l []) 0.
Definition panasonic_picture := at2 [[500; 520; 524; 464; 524; 524; 516; 524; 2404; 2572; 1924; 2521; 1896; 2492];
  [0; 0; 3000; 0; 2992; 17; 2992; 281; 2988; 513; 2988; 259; 3242; 21]].
Definition panasonic_choices := at2 [[0; 1; 2; 3; 0]; [0; 0; 1; 2; 1]].
Definition panasonic_bytes := at2 [[0; 0; 140; 100; 128; 131; 126; 0; 150; 160; 120; 77; 100; 99]; [0; 0; 0; 0; 120; 110; 0; 140; 127; 128; 128; 1; 255; 9]].
Definition panasonic_data : list Z :=
  [99; 100; 77; 224; 129; 90; 14; 224; 55; 40; 32; 25; 99; 8; 66; 31;
   9; 255; 1; 1; 2; 254; 201; 8; 16; 1; 225; 1; 224; 46; 0; 0; 0].
Lemma panasonic_fits : forall g, 0 <= g < 2 -> pana_group_fits (panasonic_choices g) (panasonic_bytes g) (pana_values panasonic_picture 14 g).
Proof.
  intros g Hg i Hi. unfold pana_pixel_fits, sample.
  assert (H : forallb (fun g => forallb (fun i =>
    let c := panasonic_choices g ((i + 1) / 3) in let v := pana_values panasonic_picture 14 g in let b := panasonic_bytes g i in let s := pana_shift (panasonic_choices g) i in
    (0 <=? c) && (c <? 4) && (0 <=? v i) && (v i <? 65536) &&
    if pana_started v i then (b =? 0) && (v i =? pana_before v i) || (0 <? b) && (b <? 256) && (v i =? pana_base s (pana_before v i) + b * 2 ^ s)
    else (0 <=? v i) && (v i <? 4096) && ((12 <=? i) || (v i =? 0) || (16 <=? v i))) (upto 14)) (upto 2) = true) by (vm_compute; reflexivity).
  pose proof (upto_all 14 _ (upto_all 2 _ H g Hg) i Hi) as Q. cbv beta zeta in Q. clear H. destruct (pana_started _ i); lia.
Qed.
Example C47_panasonic_example : forall M : Mode, exists out, pana_decompress panasonic_data 14 2 false = Ok out /\ is_image out 14 2 panasonic_picture.
Proof.
  intros M. apply C47_panasonic with (choice := panasonic_choices) (byte := panasonic_bytes).
  - lia.
  - lia.
  - reflexivity.
  - exact panasonic_fits.
  - apply Forall_forall. intros x Hx. cbn in Hx. unfold byte. lia.
  - reflexivity.
  - reflexivity.
  - intros g Hg. change (14 / 14 * 2) with 2 in Hg. assert (g = 0 \/ g = 1) as [-> | ->] by lia; vm_compute; reflexivity.
Qed.
(** The hypotheses of the second theorem are met by the file of the third; those of
    [C47_panasonic_split_refuted] and [C47_panasonic_end_refuted] are part of them. *)
Example C47_panasonic_split_example : forall M : Mode, exists buf out, pana_decompress buf 14 513 true = Ok out /\ zlen out = 7182 /\
  forall c, 0 <= c < 14 -> nth (Z.to_nat (511 * 14 + c)) out 0 = 0.
Proof. exact split_example. Qed.
