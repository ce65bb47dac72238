(** Property C47: further formats that code each pixel as its difference from a
    prediction give back the picture that was coded. *)
From Coq Require Import String ZArith List Bool Lia.
From Verif Require Import Base Pumps Huffman Ciff Camera Decoder Dec_Pred Dec_Crw
  Spec_Bits Spec_Stream Spec_Image Spec_Huffman Spec_Ljpeg Spec_Phase Spec_Crw P_Pred10 P_Crw4.
Import ListNotations.
Local Open Scope Z_scope.

(** ** Phase One *)

(** Every picture, for every choice of lengths that has room for the differences.
    The rows may be anywhere in the file; a table at [strip] says where, relative
    to [data]. *)
Theorem C47_phase_one : forall {M : Mode} buf data strip w h choice pic rest, bytes buf -> 0 < w < 2 ^ 32 -> 0 <= h -> 0 <= data -> 0 <= strip ->
  strip + 4 * h <= Z.of_nat (length buf) ->
  (forall r, 0 <= r < h -> phase_possible choice pic w r /\
    let pos := data + little_endian_value (firstn 4 (skipn (Z.to_nat (strip + 4 * r)) buf)) in
    pos <= Z.of_nat (length buf) /\
    stream MSB32 (skipn (Z.to_nat pos) buf) 0 = phase_row choice pic w r ++ rest r) ->
  exists out, iiq_decompress buf data strip w h = Ok out /\ is_image out w h pic.
Proof. exact @phase_ok. Qed.
Print Assumptions C47_phase_one.

Definition phase_picture (r c : Z) : Z := nth (Z.to_nat (17 * r + c))
  [100; 3; 150; 10; 120; 1; 110; 5; 140; 7; 141; 9; 142; 8; 143; 10; 40000;
   1; 50000; 2; 49990; 3; 49995; 4; 50001; 5; 50002; 6; 50003; 7; 50000; 8; 50000; 65535] 0.
Definition phase_choice (r j : Z) (g : nat) : option nat :=
  match g with
  | O => Some (if r =? 0 then (if j =? 0 then 0%nat else 6%nat) else if j =? 0 then 2%nat else 8%nat)
  | S _ => if (r =? 0) && (j =? 0) then None else Some (if r =? 0 then 7%nat else 6%nat)
  end.
Definition phase_file : list Z :=
  [0; 0; 0; 0; 28; 0; 0; 0;
   198; 202; 113; 65; 156; 117; 38; 204; 128; 1; 216; 57; 254; 7; 24; 128; 196; 25; 128; 128; 0; 0; 0; 0; 0; 0; 0; 0;
   80; 195; 32; 32; 12; 26; 13; 131; 212; 48; 184; 52; 132; 16; 10; 66; 255; 63; 200; 32; 0; 0; 0; 252; 0; 0; 0; 0].
Example C47_phase_one_example : forall M : Mode, exists out, iiq_decompress phase_file 8 0 17 2 = Ok out /\ is_image out 17 2 phase_picture.
Proof.
  intros M. apply C47_phase_one with (choice := phase_choice) (rest := fun r => if r =? 0 then skipn 164 (stream MSB32 (skipn 8 phase_file) 0) else skipn 166 (stream MSB32 (skipn 36 phase_file) 0)).
  - apply Forall_forall. intros x Hx. cbn in Hx. unfold byte. lia.
  - lia.
  - lia.
  - lia.
  - lia.
  - vm_compute. discriminate.
  - intros r Hr. split; [split; [|split]|].
    + intros j g i H. unfold phase_choice in H. destruct g; destruct (r =? 0), (j =? 0); cbn in H; try discriminate H; injection H as <-; lia.
    + intros j H. discriminate H.
    + intros c Hc. split.
      * assert (forall k, sample (nth k [100; 3; 150; 10; 120; 1; 110; 5; 140; 7; 141; 9; 142; 8; 143; 10; 40000;
          1; 50000; 2; 49990; 3; 49995; 4; 50001; 5; 50002; 6; 50003; 7; 50000; 8; 50000; 65535] 0)) as H.
        { intros k. unfold sample. do 34 (destruct k as [|k]; [cbn; lia|]). destruct k; cbn; lia. }
        apply H.
      * assert (r = 0 \/ r = 1) as [-> | ->] by lia;
        assert (c = 0 \/ c = 1 \/ c = 2 \/ c = 3 \/ c = 4 \/ c = 5 \/ c = 6 \/ c = 7 \/ c = 8 \/ c = 9 \/ c = 10 \/ c = 11 \/ c = 12 \/ c = 13 \/ c = 14 \/ c = 15 \/ c = 16) as C by lia;
        repeat (destruct C as [-> |C]; [first [left; reflexivity|right; vm_compute; split; first [reflexivity|discriminate]]|]); subst c; left; reflexivity.
    + assert (r = 0 \/ r = 1) as [-> | ->] by lia; split; vm_compute; first [reflexivity|discriminate].
Qed.

(** ** Canon CRW *)

(** Cameras that store the low bits apart: the coded data follow a header of 540
    bytes and the low bits, which start at byte 26. *)
Theorem C47_canon : forall {M : Mode} buf ciff cam en dt w h pic pad rest,
  fetch_cifd_tag ciff C_DecoderTable = Ok en -> cget_u32 en 0 = Ok dt -> 0 <= dt <= 2 ->
  find_hint cam "nolowbits" = false ->
  0 < w -> 0 <= h -> (w * h) mod 64 = 0 ->
  (forall r c, 0 <= r < h -> 0 <= c < w -> sample (pic r c)) -> canon_fits (high_bits pic) w h ->
  540 + w * h / 4 <= Z.of_nat (length buf) ->
  (forall j, 0 <= j < w * h / 4 -> nth (Z.to_nat (26 + j)) buf 0 = low_bits pic w j) ->
  let data := skipn (Z.to_nat (540 + w * h / 4)) buf in
  readable JPEG data -> stream JPEG data pad = canon_coded dt (high_bits pic) w h ++ rest -> (16 <= length rest)%nat ->
  exists out, crw_decompress buf ciff cam w h = Ok out /\ is_image out w h (canon_adjusted pic w).
Proof. exact @canon_ok. Qed.
Print Assumptions C47_canon.

(** Cameras that do not. *)
Theorem C47_canon_plain : forall {M : Mode} buf ciff cam en dt w h pic pad rest,
  fetch_cifd_tag ciff C_DecoderTable = Ok en -> cget_u32 en 0 = Ok dt -> 0 <= dt <= 2 ->
  find_hint cam "nolowbits" = true ->
  0 < w -> 0 <= h -> (w * h) mod 64 = 0 -> canon_fits pic w h -> 540 <= Z.of_nat (length buf) ->
  let data := skipn 540 buf in
  readable JPEG data -> stream JPEG data pad = canon_coded dt pic w h ++ rest -> (16 <= length rest)%nat ->
  exists out, crw_decompress buf ciff cam w h = Ok out /\ is_image out w h pic.
Proof. exact @canon_plain_ok. Qed.
Print Assumptions C47_canon_plain.

(** The code counts on a whole number of blocks: a picture whose number of pixels is
    not a multiple of 64 is never decoded, whatever the data. *)
Theorem C47_canon_short_refuted : forall {M : Mode} buf ciff cam w h out, 0 <= w * h -> (w * h) mod 64 <> 0 ->
  crw_decompress buf ciff cam w h <> Ok out.
Proof. exact @canon_short. Qed.
Print Assumptions C47_canon_short_refuted.

Definition canon_picture (r c : Z) : Z :=
  if (r =? 2) || (r =? 3) then 2055 else 2048 + (r * 37 + c * 23) mod 61 + (if (c =? 5) then 700 else 0).
Definition canon_data : list Z :=
  [241; 91; 128; 250; 186; 135; 73; 131; 131; 99; 131; 99; 131; 47; 140;
   99; 234; 173; 206; 147; 7; 1; 183; 1; 183; 12; 231; 255; 0; 103; 159;
   218; 206; 12; 110; 117; 86; 62; 147; 70; 220; 6; 220; 6; 63; 51; 131;
   31; 87; 99; 233; 48; 99; 112; 99; 112; 99; 103; 177; 177; 245; 88;
   223; 73; 144; 24; 220; 24; 220; 28; 217; 128; 219; 234; 176; 125; 45;
   192; 99; 131; 99; 131; 96; 0; 0].
Definition canon_lows : list Z :=
  [44; 203; 113; 28; 97; 219; 178; 44; 255; 255; 255; 255; 255; 255;
   255; 255; 182; 45; 203; 114; 134; 97; 219; 182; 199; 113; 24; 134;
   203; 178; 28; 199].
Definition canon_file : list Z := repeat 0 26 ++ canon_lows ++ repeat 0 514 ++ canon_data.
Definition canon_ciff : cifd := mkcifd [(C_DecoderTable, mkcentry C_DecoderTable 0x1800 1 4 0 [0; 0; 0; 0])] [].
Example C47_canon_example : forall (M : Mode) cam, exists out,
  crw_decompress canon_file canon_ciff (set_hints [] cam) 16 8 = Ok out /\ is_image out 16 8 canon_picture.
Proof.
  intros M cam.
  assert (P : forall r c, 2048 <= canon_picture r c < 2809).
  { intros r c. unfold canon_picture. pose proof (Z.mod_pos_bound (r * 37 + c * 23) 61 ltac:(lia)).
    destruct ((r =? 2) || (r =? 3)); [lia|]. destruct (c =? 5); lia. }
  destruct (C47_canon canon_file canon_ciff (set_hints [] cam) (mkcentry C_DecoderTable 0x1800 1 4 0 [0; 0; 0; 0]) 0 16 8 canon_picture 0
    (skipn 651 (stream JPEG canon_data 0))) as [out [E I]].
  - vm_compute. reflexivity.
  - vm_compute. reflexivity.
  - lia.
  - reflexivity.
  - lia.
  - lia.
  - reflexivity.
  - intros r c _ _. pose proof (P r c). unfold sample. lia.
  - split; [|split].
    + intros r c _ _. pose proof (P r c). unfold sample, high_bits. Z.div_mod_to_equations. lia.
    + intros b Hb. apply Z.ltb_lt. refine (upto_all 2 (fun b => Z.abs (canon_first_step (high_bits canon_picture) 16 b) <? 2048) _ b Hb). vm_compute. reflexivity.
    + intros k Hk _. apply Z.ltb_lt. refine (upto_all 128 (fun k => Z.abs (canon_step (high_bits canon_picture) 16 k) <? 1024) _ k Hk). vm_compute. reflexivity.
  - vm_compute. discriminate.
  - intros j Hj. apply Z.eqb_eq. refine (upto_all 32 (fun j => nth (Z.to_nat (26 + j)) canon_file 0 =? low_bits canon_picture 16 j) _ j Hj). vm_compute. reflexivity.
  - split.
    + change (bytes canon_data). apply Forall_forall. intros x Hx. cbn in Hx. unfold byte. lia.
    + intros _. vm_compute. repeat split; discriminate.
  - vm_compute. reflexivity.
  - vm_compute. lia.
  - exists out. split; [exact E|]. exact I.
Qed.
Example C47_canon_short_example : forall (M : Mode) buf ciff cam out, crw_decompress buf ciff cam 1000 667 <> Ok out.
Proof. intros. apply C47_canon_short_refuted; [lia|discriminate]. Qed.
Example C47_canon_plain_example : forall (M : Mode) cam, exists out,
  crw_decompress (repeat 0 540 ++ canon_data) canon_ciff (set_hints ["nolowbits"%string] cam) 16 8 = Ok out /\ is_image out 16 8 (high_bits canon_picture).
Proof.
  intros M cam.
  assert (P : forall r c, 2048 <= canon_picture r c < 2809).
  { intros r c. unfold canon_picture. pose proof (Z.mod_pos_bound (r * 37 + c * 23) 61 ltac:(lia)).
    destruct ((r =? 2) || (r =? 3)); [lia|]. destruct (c =? 5); lia. }
  apply C47_canon_plain with (en := mkcentry C_DecoderTable 0x1800 1 4 0 [0; 0; 0; 0]) (dt := 0) (pad := 0%nat) (rest := skipn 651 (stream JPEG canon_data 0)).
  - vm_compute. reflexivity.
  - vm_compute. reflexivity.
  - lia.
  - reflexivity.
  - lia.
  - lia.
  - reflexivity.
  - split; [|split].
    + intros r c _ _. pose proof (P r c). unfold sample, high_bits. Z.div_mod_to_equations. lia.
    + intros b Hb. apply Z.ltb_lt. refine (upto_all 2 (fun b => Z.abs (canon_first_step (high_bits canon_picture) 16 b) <? 2048) _ b Hb). vm_compute. reflexivity.
    + intros k Hk _. apply Z.ltb_lt. refine (upto_all 128 (fun k => Z.abs (canon_step (high_bits canon_picture) 16 k) <? 1024) _ k Hk). vm_compute. reflexivity.
  - vm_compute. discriminate.
  - split.
    + change (bytes canon_data). apply Forall_forall. intros x Hx. cbn in Hx. unfold byte. lia.
    + intros _. vm_compute. repeat split; discriminate.
  - vm_compute. reflexivity.
  - vm_compute. lia.
Qed.
