(** Property C47: further formats that code each pixel as its difference from a
    prediction give back the picture that was coded. *)
From Coq Require Import ZArith List Bool Lia.
From Verif Require Import Base Lookup Pumps Dec_Simple Dec_Nef
  Spec_Bits Spec_Stream Spec_Image Spec_Huffman Spec_Ljpeg Spec_Pred Spec_Curve Spec_Nikon Spec_Dcr Spec_Srw1 Spec_Srw3 P_Crw4 P_Dcr2 P_Srw1b P_Srw3b.
Import ListNotations.
Local Open Scope Z_scope.

(** ** Kodak (DCR) *)

(** Every picture whose differences have fifteen bits; the pixels are taken through the
    curve of the file, with noise that starts from 0. *)
Theorem C47_kodak : forall {M : Mode} w h pic curve seg rest table, 0 < w -> 0 <= h ->
  samples curve -> increasing curve -> not_too_steep curve -> lookup_new curve = Ok table ->
  (forall r c, 0 <= r < h -> 0 <= c < w -> 0 <= pic r c < zlen curve /\ sample (pic r c)) ->
  (forall r k, 0 <= r < h -> 0 <= k < kodak_segments w -> Forall (fun d => Z.abs d < 2 ^ 15) (kodak_differences pic w r k) /\ kodak_segment (kodak_differences pic w r k) (seg r k)) ->
  exists out, decode_kodak65000 (flat_map (fun r => flat_map (seg r) (upto (kodak_segments w))) (upto h) ++ rest) table w h = Ok out /\ is_image out w h (toned_picture curve pic w 0).
Proof. exact @dcr_ok. Qed.
Print Assumptions C47_kodak.

Definition kodak_picture (r c : Z) : Z := (50 + 37 * r + 23 * c * c + 11 * c) mod 101.
Definition kodak_curve : list Z := map (fun i => i * i) (upto 101).
Definition kodak_data (r k : Z) : list Z :=
  if r =? 0 then [118; 52; 67; 101; 102; 118; 181; 50; 64; 169; 63; 31; 59; 19; 0; 0]
  else [87; 52; 67; 117; 102; 102; 218; 87; 160; 84; 213; 162; 33; 168; 0; 0].
Lemma kodak_curve_at : forall i, 0 <= i < 101 -> at_ kodak_curve i = i * i.
Proof.
  intros i Hi. pose proof (upto_all 101 (fun i => at_ kodak_curve i =? i * i)) as H. apply Z.eqb_eq. apply H; [vm_compute; reflexivity|exact Hi].
Qed.
Example C47_kodak_example : forall M : Mode, exists table out, lookup_new kodak_curve = Ok table /\
  decode_kodak65000 [118; 52; 67; 101; 102; 118; 181; 50; 64; 169; 63; 31; 59; 19; 0; 0; 87; 52; 67; 117; 102; 102; 218; 87; 160; 84; 213; 162; 33; 168; 0; 0; 9] table 12 2 = Ok out /\
  is_image out 12 2 (toned_picture kodak_curve kodak_picture 12 0).
Proof.
  intros M. assert (L : Z.of_nat (length kodak_curve) = 101) by (vm_compute; reflexivity).
  assert (Cs : samples kodak_curve) by (apply Forall_forall; intros x Hx; apply in_map_iff in Hx; destruct Hx as [i [<- Hi]]; unfold upto in Hi; apply in_map_iff in Hi; destruct Hi as [n [<- Hn]]; apply in_seq in Hn; unfold sample; nia).
  assert (Ci : increasing kodak_curve) by (intros i j Hij Hj; rewrite L in Hj; rewrite !kodak_curve_at by lia; nia).
  assert (Cn : not_too_steep kodak_curve).
  { intros i Hi Hz. rewrite L in Hi. rewrite kodak_curve_at in * by lia.
    assert (A : above kodak_curve i <= (i + 1) * (i + 1)) by (unfold above; rewrite L; destruct (i =? 101 - 1) eqn:E; [rewrite kodak_curve_at by lia; nia|rewrite kodak_curve_at by lia; lia]).
    assert (B : i * i - 2 * i <= below kodak_curve i) by (unfold below; destruct (i =? 0) eqn:E; [lia|rewrite kodak_curve_at by lia; lia]).
    split; [|nia]. assert (i <> 0) by nia. assert ((above kodak_curve i - below kodak_curve i + 2) / 4 <= (4 * i + 3) / 4) by (apply Z.div_le_mono; lia).
    assert ((4 * i + 3) / 4 = i) by (symmetry; apply Z.div_unique with 3; lia). nia. }
  destruct (lookup_new_ok' kodak_curve Cs Ci Cn) as [table Ht]. exists table. destruct (C47_kodak 12 2 kodak_picture kodak_curve kodak_data [9] table) as [out [E I]].
  - lia.
  - lia.
  - exact Cs.
  - exact Ci.
  - exact Cn.
  - exact Ht.
  - intros r c _ _. unfold zlen. rewrite L. unfold kodak_picture, sample. pose proof (Z.mod_pos_bound (50 + 37 * r + 23 * c * c + 11 * c) 101 ltac:(lia)). lia.
  - intros r k Hr Hk. change (kodak_segments 12) with 1 in Hk. assert (k = 0) as -> by lia. assert (r = 0 \/ r = 1) as [-> | ->] by lia.
    + split; [apply Forall_forall; intros x Hx; vm_compute in Hx; lia|]. exists [181; 50; 64; 169; 63; 31; 59; 19; 0; 0].
      split; [vm_compute; reflexivity|split; [apply Forall_forall; intros x Hx; cbn in Hx; unfold byte; lia|split; vm_compute; reflexivity]].
    + split; [apply Forall_forall; intros x Hx; vm_compute in Hx; lia|]. exists [218; 87; 160; 84; 213; 162; 33; 168; 0; 0].
      split; [vm_compute; reflexivity|split; [apply Forall_forall; intros x Hx; cbn in Hx; unfold byte; lia|split; vm_compute; reflexivity]].
  - exists out. split; [exact Ht|split; [exact E|exact I]].
Qed.

(** ** Samsung, first compression *)

(** Whatever way of prediction and whatever numbers of bits the encoder chose.  The file
    has a table of the places where the rows start. *)
Theorem C47_samsung1 : forall {M : Mode} w h pic up op len diff buf offsets rest, 16 <= w -> Z.even w = true -> 2 <= h -> Z.even h = true -> sample_picture pic w h ->
  samsung_fits (samsung_turned pic) up op len diff w h -> bytes offsets -> 4 * h <= Z.of_nat (length offsets) ->
  (forall r, 0 <= r < h -> let o := little_endian_value (firstn 4 (skipn (Z.to_nat (4 * r)) offsets)) in
    o <= Z.of_nat (length buf) /\ readable MSB32 (skipn (Z.to_nat o) buf) /\ stream MSB32 (skipn (Z.to_nat o) buf) 0 = samsung_row up op len diff w r ++ rest r) ->
  exists out, decode_srw1 buf offsets w h = Ok out /\ is_image out w h pic.
Proof. exact @srw1_ok. Qed.
Print Assumptions C47_samsung1.

(** No picture of odd height is ever decoded. *)
Theorem C47_samsung1_odd_refuted : forall {M : Mode} buf offsets w h out, 0 < w -> 0 < h -> Z.odd h = true ->
  decode_srw1 buf offsets w h <> Ok out.
Proof. exact @srw1_odd. Qed.
Print Assumptions C47_samsung1_odd_refuted.

Definition samsung_picture (r c : Z) : Z := (41 + 13 * r + 7 * c * c) mod 100.
Definition samsung_ups (r g : Z) : bool := r + g =? 1.
Definition samsung_ops (r g i : Z) : Z := if g =? 0 then 3 else if i =? 3 then 0 else i.
Definition samsung_lens (r g i : Z) : Z := if g =? 0 then 9 else nth (Z.to_nat i) [9; 10; 8; 9] 0.
Definition samsung_diffs (r c : Z) : Z :=
  if c <? 18 then samsung_turned samsung_picture r c - samsung_predicted (samsung_turned samsung_picture) samsung_ups r c else -1.
Definition samsung_data : list Z :=
  [129; 204; 204; 255; 190; 191; 253; 247; 1; 231; 95; 188; 178; 253; 247; 129; 231; 151; 79; 216; 31; 6; 134; 1; 255; 255; 255; 255; 252; 255; 255; 255; 255; 255; 255; 195; 255; 255; 255; 255; 0; 0; 0; 192;
   234; 204; 204; 127; 239; 94; 187; 120; 198; 177; 83; 103; 44; 92; 186; 237; 190; 109; 11; 54; 63; 4; 70; 205; 255; 255; 255; 255; 252; 255; 255; 255; 255; 255; 255; 187; 255; 255; 255; 255; 0; 0; 0; 192].
Example C47_samsung1_example : forall M : Mode, exists out, decode_srw1 samsung_data [44; 0; 0; 0; 0; 0; 0; 0] 18 2 = Ok out /\ is_image out 18 2 samsung_picture.
Proof.
  intros M. apply (C47_samsung1 18 2 samsung_picture samsung_ups samsung_ops samsung_lens samsung_diffs samsung_data [44; 0; 0; 0; 0; 0; 0; 0]
    (fun r => skipn 322 (stream MSB32 (skipn (if r =? 0 then 44 else 0) samsung_data) 0))); try lia; try reflexivity.
  - intros r c _ _. unfold samsung_picture, sample. pose proof (Z.mod_pos_bound (41 + 13 * r + 7 * c * c) 100 ltac:(lia)). lia.
  - split.
    + intros r g i Hr Hg Hi. change (samsung_groups 18) with 2 in Hg. assert (r = 0 \/ r = 1) as [-> | ->] by lia; assert (g = 0 \/ g = 1) as [-> | ->] by lia;
      assert (i = 0 \/ i = 1 \/ i = 2 \/ i = 3) as [-> |[-> |[-> | ->]]] by lia; unfold samsung_length_fits; vm_compute; intuition congruence.
    + intros r c Hr Hc. change (16 * samsung_groups 18) with 32 in Hc.
      assert (B : forall c, 0 <= c < 32 -> forallb (fun r => (- 128 <=? samsung_diffs r c) && (samsung_diffs r c <? 128) && (8 <=? samsung_lens r (c / 16) (samsung_which c))) [0; 1] = true).
      { apply (upto_all 32 (fun c => forallb (fun r => (- 128 <=? samsung_diffs r c) && (samsung_diffs r c <? 128) && (8 <=? samsung_lens r (c / 16) (samsung_which c))) [0; 1])). vm_compute. reflexivity. }
      specialize (B c Hc). cbn [forallb] in B. rewrite andb_true_r in B. apply andb_prop in B. destruct B as [B0 B1].
      assert (B : (- 128 <=? samsung_diffs r c) && (samsung_diffs r c <? 128) && (8 <=? samsung_lens r (c / 16) (samsung_which c)) = true) by (assert (r = 0 \/ r = 1) as [-> | ->] by lia; assumption).
      apply andb_prop in B. destruct B as [B B3]. apply andb_prop in B. destruct B as [B1' B2]. apply Z.leb_le in B1', B3. apply Z.ltb_lt in B2. split.
      * unfold signed_fits. set (l := samsung_lens r (c / 16) (samsung_which c)) in *. destruct (l =? 0) eqn:E; [apply Z.eqb_eq in E; lia|].
        assert (2 ^ 7 <= 2 ^ (l - 1)) by (apply Z.pow_le_mono_r; lia). change (2 ^ 7) with 128 in *. lia.
      * intros H. unfold samsung_diffs. apply Z.ltb_lt in H. rewrite H. reflexivity.
  - apply Forall_forall. intros x Hx. cbn in Hx. unfold byte. lia.
  - assert (Bs : bytes samsung_data).
    { apply Forall_forall. intros x Hx. assert (B : forallb (fun x => (0 <=? x) && (x <? 256)) samsung_data = true) by (vm_compute; reflexivity).
      apply (proj1 (forallb_forall _ _) B) in Hx. apply andb_prop in Hx. destruct Hx as [H1 H2]. apply Z.leb_le in H1. apply Z.ltb_lt in H2. split; assumption. }
    assert (Sk : forall n, bytes (skipn n samsung_data)) by (intros n; apply Forall_forall; intros x Hx; apply (proj1 (Forall_forall _ _) Bs); rewrite <- (firstn_skipn n samsung_data); apply in_or_app; right; exact Hx).
    intros r Hr. assert (r = 0 \/ r = 1) as [-> | ->] by lia; (split; [vm_compute; discriminate|split; [split; [apply Sk|discriminate]|vm_compute; reflexivity]]).
Qed.

(** ** Samsung, third compression *)

(** Whatever the encoder chose; each row starts at the next multiple of sixteen bytes. *)
Theorem C47_samsung3 : forall {M : Mode} e pic w h x other head data pad more, 0 < w -> w mod 16 = 0 -> 0 <= h -> n_fits e pic w h ->
  bytes head -> Z.of_nat (length head) = 16 -> stream MSB32 head 0 = n_header e x other ->
  (forall r, 0 <= r < h -> bytes (data r) /\ Z.of_nat (length (data r)) = 16 * ((Z.of_nat (length (n_row e w r)) + 127) / 128) /\
    Z.of_nat (length (data r)) < 2 ^ 60 /\ stream MSB32 (data r) 0 = n_row e w r ++ pad r) -> bytes more ->
  exists out, decode_srw3 (head ++ flat_map data (upto h) ++ more) w h = Ok out /\ is_image out w h pic.
Proof. exact @srw3_ok. Qed.
Print Assumptions C47_samsung3.

(** No picture of another width is ever decoded. *)
Theorem C47_samsung3_width_refuted : forall {M : Mode} buf w h out, 0 < w -> 0 < h -> w mod 16 <> 0 -> decode_srw3 buf w h <> Ok out.
Proof. exact @srw3_odd. Qed.
Print Assumptions C47_samsung3_width_refuted.

Definition table (l : list (list Z)) (r c : Z) : Z := nth (Z.to_nat c) (nth (Z.to_nat r) l []) 0.
Definition samsung3_picture : Z -> Z -> Z := table
  [[118; 95; 74; 72; 137; 79; 48; 123; 9; 110; 20; 88; 159; 99; 1; 89; 23; 36; 0; 59; 0; 99; 0; 132; 0; 82; 76; 80; 0; 92; 0; 84];
   [138; 0; 117; 0; 145; 320; 145; 0; 502; 0; 278; 0; 96; 61; 0; 320; 0; 320; 0; 320; 0; 320; 0; 320; 0; 320; 0; 320; 0; 320; 0; 320];
   [0; 61; 107; 103; 177; 88; 77; 129; 12; 36; 63; 246; 198; 201; 292; 0; 297; 36; 328; 66; 331; 93; 332; 125; 323; 89; 323; 105; 317; 96; 317; 101]].
Definition samsung3_choices : samsung3 := {|
  n_depth := 12; n_init := 100; n_plain := false; n_simple := false; n_full := false;
  n_scale := table [[0; 0]; [3; 0]; [2; 0]]; n_scale_op := table [[0; 0]; [3; 0]; [2; 0]];
  n_motion := table [[7; 7]; [7; 7]; [4; 3]]; n_keep := fun r g => (r =? 0) || (r =? 1) && (g =? 0); n_skip := fun r g => (r =? 1) && (g =? 1);
  n_op := fun r g i => table [[0; 1; 2; 3; 2; 0; 1; 0]; [0; 2; 3; 1; 0; 0; 0; 0]; [1; 0; 0; 3; 1; 2; 0; 0]] r (4 * g + i);
  n_len := fun r g i => table [[7; 8; 6; 5; 6; 8; 7; 5]; [7; 6; 4; 8; 0; 0; 0; 0]; [5; 4; 4; 6; 6; 3; 4; 6]] r (4 * g + i);
  n_diff := table
  [[18; -5; -26; -28; 37; -21; -52; 23; -91; 10; -80; -12; 59; -1; -99; -11; 22; -53; -25; -30; -17; 10; -4; 43; -97; -7; 75; -9; -103; 3; -15; -5];
   [5; -38; 2; -16; 6; 31; 6; -40; 57; -24; 25; -25; -1; -6; -36; 31; 0; 0; 0; 0; 0; 0; 0; 0; 0; 0; 0; 0; 0; 0; 0; 0];
   [-1; -5; -11; 5; 3; -3; 15; 2; 2; -13; 6; 30; 1; 21; -6; -27; -23; 0; 8; 7; 11; -6; 12; -7; 3; 7; 3; 25; -3; 4; -3; 17]] |}.
Definition samsung3_data : list (list Z) :=
  [[153; 37; 181; 33; 3; 91; 202; 44; 173; 228; 222; 185; 161; 245; 83; 117; 39; 255; 158; 22; 101; 124; 230; 210; 55; 175; 20; 226; 0; 0; 192; 30];
   [75; 45; 14; 192; 162; 216; 15; 92; 102; 82; 159; 126; 220; 255; 25; 57; 0; 0; 0; 120; 0; 0; 0; 0; 0; 0; 0; 0; 0; 0; 0; 0];
   [168; 223; 134; 144; 107; 53; 76; 222; 202; 202; 155; 165; 44; 72; 10; 102; 169; 7; 237; 198; 0; 17; 145; 29; 0; 0; 0; 0; 0; 0; 0; 0]].
Definition samsung3_file : list Z := [52; 43; 1; 0; 3; 0; 32; 0; 6; 80; 32; 0; 100; 64; 8; 7] ++ concat samsung3_data ++ [77].
Example C47_samsung3_example : forall M : Mode, exists out, decode_srw3 samsung3_file 32 3 = Ok out /\ is_image out 32 3 samsung3_picture.
Proof.
  intros M. apply (C47_samsung3 samsung3_choices samsung3_picture 32 3 false (fun i => nth (Z.to_nat i) [1; 2; 3; 4; 32; 3; 32; 5; 6; 7; 8; 1] 0)
    [52; 43; 1; 0; 3; 0; 32; 0; 6; 80; 32; 0; 100; 64; 8; 7] (fun r => nth (Z.to_nat r) samsung3_data [])
    (fun r => skipn (length (n_row samsung3_choices 32 r)) (stream MSB32 (nth (Z.to_nat r) samsung3_data []) 0)) [77]).
  - lia.
  - reflexivity.
  - lia.
  - apply n_check_ok. vm_compute. reflexivity.
  - apply bytes_check. vm_compute. reflexivity.
  - reflexivity.
  - vm_compute. reflexivity.
  - intros r Hr. assert (r = 0 \/ r = 1 \/ r = 2) as [-> |[-> | ->]] by lia;
      (split; [apply bytes_check; vm_compute; reflexivity|split; [vm_compute; reflexivity|split; [reflexivity|vm_compute; reflexivity]]]).
  - apply bytes_check. vm_compute. reflexivity.
Qed.
