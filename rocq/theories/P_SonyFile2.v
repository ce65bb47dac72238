(** Checks on a concrete file for the example of C67. *)
From Coq Require Import String Ascii ZArith List Bool Lia ZifyBool.
From Verif Require Import Base Num F32 Tiff Transform Image Camera Arw Spec_Bits Spec_Packed Spec_Huffman Spec_Ljpeg Spec_Sensor Spec_Tiff Spec_Camera Spec_Known Spec_Meta Spec_File Spec_Tree Spec_SonyFile.
From Verif Require Import P_Base P_Srw3b P_File5 P_Tree6.
From Verif Require P_Sensor1.
Import ListNotations.
Local Open Scope Z_scope.

Lemma hides_check : forall file offset len key plain, bytes file -> 0 <= offset -> 0 <= len -> sony_decrypt file offset len key = Ok plain -> hides file offset len key plain.
Proof.
  intros file offset len key plain Hb Ho Hl E. pose proof (P_Sensor1.decrypt_enough _ _ _ _ _ Hl E) as Hn. destruct (P_Sensor1.sequence_exists key) as [s Hs].
  destruct (P_Sensor1.decrypt_words _ _ _ _ _ _ Hb Ho Hl Hs E) as (B & L & W). assert (0 <= len / 4) by (apply Z.div_pos; lia). unfold zlen in *.
  split; [exact B|]. split; [exact L|]. split; [lia|]. exists s. split; [exact Hs|]. intros i Hi. rewrite W by lia. rewrite Z.lxor_assoc, Z.lxor_nilpotent, Z.lxor_0_r. reflexivity.
Qed.
Fixpoint are_based (area : list Z) (base pos : Z) (rs : list (field * Z)) : bool :=
  match rs with
  | [] => true
  | (f, place) :: t =>
      is_placed area pos (field_entry false (base + place) f) && (inline false f || is_placed area place (field_data false f)) &&
      ((0 <=? f_tag f) && (f_tag f <? 65536)) && ((1 <=? f_typ f) && (f_typ f <=? 13)) && negb (is_pointer (f_tag f)) && negb (f_tag f =? note_tag) && are_based area base (pos + 12) t
  end.
Lemma are_based_ok : forall area base rs pos, are_based area base pos rs = true -> rows_based area base pos rs.
Proof.
  intros area base rs. induction rs as [|[f place] rs IH]; intros pos H; [exact I|]. cbn [are_based] in H. repeat rewrite andb_true_iff in H. destruct H as ((((((H1 & H2) & H3) & H4) & H5) & H6) & H7).
  cbn [rows_based]. change (2 ^ 16) with 65536. split; [apply is_placed_ok; exact H1|]. split; [intros Q; rewrite Q in H2; apply is_placed_ok; exact H2|]. split; [lia|]. split; [lia|]. split; [destruct (is_pointer _); [discriminate H5|reflexivity]|].
  split; [lia|apply IH; exact H7].
Qed.
Lemma own_check : forall area base rs, (length rs <=? 4000)%nat = true -> distinct (map f_tag (map fst rs)) = true -> is_placed area 0 (bytes_of false 2 (Z.of_nat (length rs))) = true -> are_based area base 2 rs = true ->
  is_placed area (2 + 12 * Z.of_nat (length rs)) (bytes_of false 4 0) = true -> own_directory area base (map fst rs).
Proof.
  intros area base rs H1 H2 H3 H4 H5. exists rs, 0. split; [reflexivity|]. split; [apply Nat.leb_le in H1; lia|]. split; [apply distinct_ok; exact H2|]. split; [apply is_placed_ok; exact H3|].
  split; [apply are_based_ok; exact H4|]. split; [apply is_placed_ok; exact H5|]. change (2 ^ 32) with 4294967296. lia.
Qed.
Lemma bits_check : forall (M : Mode) db make model,
  match loader_new db with
  | Ok l => match find_camera l make model "" with
            | Some cam => (snd (c_blackareah cam) =? 0) && (snd (c_blackareav cam) =? 0) && (c_bps cam =? 0)
            | None => false end
  | _ => false
  end = true ->
  exists l cam, loader_new db = Ok l /\ find_camera l make model "" = Some cam /\ no_black_area cam /\ c_bps cam = 0.
Proof.
  intros M db make model H. destruct (loader_new db) as [l| | |]; try discriminate H. exists l. destruct (find_camera l make model "") as [cam|]; [|discriminate H]. exists cam.
  apply andb_prop in H. destruct H as [H H3]. apply andb_prop in H. destruct H as [H1 H2]. split; [reflexivity|]. split; [reflexivity|]. split; [split; lia|lia].
Qed.

(** ** Files *)
(** The hidden directory begins at [base]; its second value is after its entries *)
Definition sony_area (tag base : Z) : list Z :=
  bytes_of false 2 2 ++ field_entry false 0 (mkfield 0x7300 3 [1]) ++ field_entry false (base + 30) (mkfield tag 3 [256; 600; 400; 256]) ++ bytes_of false 4 0 ++ field_data false (mkfield tag 3 [256; 600; 400; 256]) ++ [0; 0].
Definition sony_levels (tag : Z) : list (field * Z) := [(mkfield 0x7300 3 [1], -500); (mkfield tag 3 [256; 600; 400; 256], 30)].
Definition sony_private (key base len : Z) : list field := [mkfield T_SonyOffset 4 [base]; mkfield T_SonyLength 4 [len]; mkfield T_SonyKey 4 [key]].
Definition sony_fields (size pos at_ : Z) : list field :=
  [text_field T_Make "SONY"; text_field T_Model "A700"; mkfield T_ImageWidth 3 [4]; mkfield T_ImageLength 4 [2]; mkfield T_BitsPerSample 3 [12]; mkfield T_Compression 3 [32767];
   mkfield T_StripOffsets 4 [at_]; mkfield T_StripByteCounts 4 [size]; mkfield T_DNGPrivateArea 1 (bytes_of false 4 pos)].
Definition sony_pos : Z := Eval vm_compute in 8 + Z.of_nat (length (dir_bytes false 8 0 (sony_fields 0 0 0))).
Definition sony_base : Z := Eval vm_compute in sony_pos + Z.of_nat (length (dir_bytes false 0 0 (sony_private 0 0 0))).
Definition sony_layout (size key : Z) (area : list Z) : list Z * list plan * plan :=
  let len := Z.of_nat (length area) - 4 in let at_ := sony_base + Z.of_nat (length area) in
  let cipher := match sony_decrypt area 0 len key with Ok c => c | _ => [] end in
  (order_mark false ++ bytes_of false 2 42 ++ bytes_of false 4 8 ++ dir_bytes false 8 0 (sony_fields size sony_pos at_) ++ dir_bytes false sony_pos 0 (sony_private key sony_base len) ++ cipher,
   [Plan 0 (dir_rows false 8 (0, 0) (sony_fields size sony_pos at_)) []], Plan 0 (dir_rows false sony_pos (0, 0) (sony_private key sony_base len)) []).
(** A picture of 4 by 10 with the oldest coding *)
Definition old_picture (r c : Z) : Z := (3000 * r + 17 * c) mod 4096.
Definition old_data : list Z := Eval vm_compute in (fun l => bytes_of_bits_aux (length l) Spec_Bits.number (l ++ repeat false ((8 - length l mod 8) mod 8))) (flat_map arw1_code (differences 0 (map (fun rc => old_picture (fst rc) (snd rc)) (arw1_order 4 10)))).
Ltac number_of := right; split; [vm_compute; tauto|split; [discriminate|reflexivity]].
Ltac hidden_part inner area := eexists sony_pos, 0, (tree_of inner), (Z.of_nat (length area) - 4), _; split; [member|]; split; [split; [discriminate|reflexivity]|];
  split; [apply (is_written_ok 10 false _ _ inner); vm_compute; reflexivity|]; split; [number_of|]; split; [number_of|]; split; [number_of|];
  apply hides_check; [apply bytes_check; vm_compute; reflexivity|discriminate|discriminate|vm_compute; reflexivity].
(** A file without the private directory *)
Definition sony_bare_fields (at_ : Z) : list field :=
  [text_field T_Make "SONY"; text_field T_Model "A700"; mkfield T_ImageWidth 3 [4]; mkfield T_ImageLength 4 [2]; mkfield T_BitsPerSample 3 [12]; mkfield T_Compression 3 [32767]; mkfield T_StripOffsets 4 [at_]; mkfield T_StripByteCounts 4 [12]].
Definition sony_bare : list Z * list plan := Eval vm_compute in
  let at_ := 8 + Z.of_nat (length (dir_bytes false 8 0 (sony_bare_fields 0))) in
  (order_mark false ++ bytes_of false 2 42 ++ bytes_of false 4 8 ++ dir_bytes false 8 0 (sony_bare_fields at_), [Plan 0 (dir_rows false 8 (0, 0) (sony_bare_fields at_)) []]).
(** A file whose private directory says that [len] bytes are hidden, where there are none *)
Definition sony_short (len : Z) : list Z * list plan * plan :=
  (order_mark false ++ bytes_of false 2 42 ++ bytes_of false 4 8 ++ dir_bytes false 8 0 (sony_fields 12 sony_pos sony_base) ++ dir_bytes false sony_pos 0 (sony_private 99 sony_base len),
   [Plan 0 (dir_rows false 8 (0, 0) (sony_fields 12 sony_pos sony_base)) []], Plan 0 (dir_rows false sony_pos (0, 0) (sony_private 99 sony_base len)) []).
