(** A Phase One file for the example of C65: the TIFF directory comes last. *)
From Coq Require Import String Ascii ZArith List Bool Lia ZifyBool ZifyNat.
From Verif Require Import Base Num F32 Tiff Transform Image Camera.
From Verif Require Import Spec_Bits Spec_Packed Spec_Stream Spec_Ljpeg Spec_Tiff Spec_Camera Spec_Known Spec_Meta Spec_File Spec_Tree Spec_Header Spec_Phase Spec_PhaseFile.
From Verif Require Import P_File5 P_Tree6 Props_Pred2.
Import ListNotations.
Local Open Scope Z_scope.

Definition phase_fields : list field := [text_field T_Make "Phase One A/S"; text_field T_Model "IQ180"; mkfield T_Orientation 3 [6]].
Definition phase_values : list (Z * Z) := [(Own_Width, 99); (Own_Width, 17); (Own_Height, 2); (Own_Data, 152); (Own_Rows, 132); (Own_Black, 1027); (Own_Balance, 140)].
Definition phase_plan : plan := Plan 0 (dir_rows false 216 (0, 0) phase_fields) [].
Definition phase_bytes : list Z := Eval vm_compute in
  order_mark false ++ little 2 42 ++ little 4 216 ++ [73; 73; 73; 73; 1; 2; 3; 4] ++ little 4 12 ++ little 4 7 ++ little 4 0 ++
  flat_map (fun x => little 4 (fst x) ++ little 4 1 ++ little 4 4 ++ little 4 (snd x)) phase_values ++
  little 4 0 ++ little 4 28 ++
  little 4 (float_bits (false, 127, 4194304)) ++ little 4 (float_bits (false, 127, 0)) ++ little 4 (float_bits (false, 126, 2097152)) ++
  skipn 8 phase_file ++ dir_bytes false 216 0 phase_fields.
Definition phase_trees : list tree := Eval vm_compute in [tree_of phase_plan].
Lemma number_check : forall file pos v, is_placed file pos (little 4 v) && (0 <=? v) && (v <? 2 ^ 32) = true -> number_at file pos v.
Proof. intros file pos v H. apply andb_prop in H. destruct H as [H H3]. apply andb_prop in H. destruct H as [H1 H2]. split; [apply is_placed_ok; exact H1|lia]. Qed.
Lemma phase_tree : tree_file false phase_trees phase_bytes.
Proof. rewrite <- (app_nil_r phase_bytes). apply (is_head_from_ok 216 false phase_bytes [phase_plan] []); [vm_compute; reflexivity|reflexivity|constructor]. Qed.
Lemma phase_nested : forall l cam, find_camera l "Phase One A/S" "IQ180" "" = Some cam -> no_black_area cam ->
  nested_photo l "" false phase_trees "Phase One A/S" "IQ180" phase_bytes (from_u16 6) cam.
Proof.
  intros l cam H1 H2. split; try assumption.
  - exact phase_tree.
  - split; [member|apply prints_ok; vm_compute; reflexivity|member|apply prints_ok; vm_compute; reflexivity].
  - absent.
  - discriminate.
  - left. exists 6. split; [number|reflexivity].
Qed.
Lemma phase_fits : forall r, 0 <= r < 2 -> phase_possible phase_choice phase_picture 17 r.
Proof.
  intros r Hr. split; [|split].
  - intros j g i H. unfold phase_choice in H. destruct g; destruct (r =? 0), (j =? 0); cbn in H; try discriminate H; injection H as <-; lia.
  - intros j H. discriminate H.
  - intros c Hc. split.
    + assert (forall k, sample (nth k [100; 3; 150; 10; 120; 1; 110; 5; 140; 7; 141; 9; 142; 8; 143; 10; 40000;
        1; 50000; 2; 49990; 3; 49995; 4; 50001; 5; 50002; 6; 50003; 7; 50000; 8; 50000; 65535] 0)) as H.
      { intros k. unfold sample. do 34 (destruct k as [|k]; [cbn; lia|]). destruct k; cbn; lia. }
      apply H.
    + assert (r = 0 \/ r = 1) as [-> | ->] by lia;
      assert (c = 0 \/ c = 1 \/ c = 2 \/ c = 3 \/ c = 4 \/ c = 5 \/ c = 6 \/ c = 7 \/ c = 8 \/ c = 9 \/ c = 10 \/ c = 11 \/ c = 12 \/ c = 13 \/ c = 14 \/ c = 15 \/ c = 16) as C by lia;
      repeat (destruct C as [-> |C]; [first [left; reflexivity|right; vm_compute; split; first [reflexivity|discriminate]]|]); subst c; left; reflexivity.
Qed.
Definition phase_code (r : Z) : list Z := swapped 4 (firstn 28 (skipn (Z.to_nat (8 + 28 * r)) phase_file)).
Lemma phase_rows : coded_rows phase_bytes 152 132 phase_choice phase_picture 17 2.
Proof.
  intros r Hr. split; [exact (phase_fits r Hr)|].
  exists (28 * r), (phase_code r), (skipn (Z.to_nat (188 + 28 * r)) phase_bytes), (skipn (if r =? 0 then 164 else 166) (bits_of (phase_code r))).
  assert (r = 0 \/ r = 1) as [-> | ->] by lia; (split; [apply number_check; vm_compute; reflexivity|]; split; [split; [vm_compute; split; discriminate|vm_compute; reflexivity]|]; split; vm_compute; reflexivity).
Qed.
Lemma phase_whole : phase_photo phase_bytes phase_choice phase_picture 17 2 1027 (false, 127, 4194304) (false, 127, 0) (false, 126, 2097152).
Proof.
  split. exists phase_values, 152, 132, 140. split; [|split; [|split; [|split; [|split; [|split; [exact phase_rows|split; [|split; [|]]]]]]]].
  - exists 12. split; [apply number_check; vm_compute; reflexivity|]. split; [apply number_check; vm_compute; reflexivity|].
    intros k tag v H. do 7 (destruct k as [|k]; [cbn [nth_error phase_values] in H; injection H as <- <-; split; apply number_check; vm_compute; reflexivity|]). destruct k; discriminate H.
  - exists [(Own_Width, 99)]. eexists. split; [reflexivity|]. intros v' H. cbn in H. repeat (destruct H as [H|H]; [discriminate H|]). exact H.
  - exists (firstn 2 phase_values). eexists. split; [reflexivity|]. intros v' H. cbn in H. repeat (destruct H as [H|H]; [discriminate H|]). exact H.
  - exists (firstn 3 phase_values). eexists. split; [reflexivity|]. intros v' H. cbn in H. repeat (destruct H as [H|H]; [discriminate H|]). exact H.
  - exists (firstn 4 phase_values). eexists. split; [reflexivity|]. intros v' H. cbn in H. repeat (destruct H as [H|H]; [discriminate H|]). exact H.
  - left. exists (firstn 5 phase_values). eexists. split; [reflexivity|]. intros v' H. cbn in H. repeat (destruct H as [H|H]; [discriminate H|]). exact H.
  - exists (firstn 6 phase_values). eexists. split; [reflexivity|]. intros v' H. exact H.
  - repeat split; try (apply is_placed_ok; vm_compute; reflexivity); lia.
Qed.
