(** Checks that concrete files are of those C61 is about. *)
From Coq Require Import String Ascii ZArith List Bool Lia ZifyBool ZifyNat.
From Verif Require Import Base Num F32 Tiff Transform Image Camera Spec_Bits Spec_Image Spec_Stream Spec_Huffman Spec_Ljpeg Spec_Sensor Spec_Curve Spec_Tiff Spec_Camera Spec_Known Spec_Meta Spec_File Spec_Dng Spec_Canon Spec_Tree Spec_TreeCanon.
From Verif Require Import P_Base P_Tiff3 P_Ljpeg1 P_Ljpeg7 P_Srw3b P_Crw4 P_File5 P_Tree6.
Import ListNotations.
Local Open Scope Z_scope.

Definition hinted (hints : list string) : list table :=
  [[("make", VStr "Canon"); ("model", VStr "EOS"); ("mode", VStr ""); ("clean_make", VStr "m"); ("clean_model", VStr "a"); ("whitepoint", VInt 4095); ("blackpoint", VInt 7); ("hints", VArr (map VStr hints))]]%string.
Lemma hinted_check : forall (M : Mode) db linear double,
  match loader_new db with
  | Ok l => match find_camera l "Canon" "EOS" "" with
            | Some cam => (snd (c_blackareah cam) =? 0) && (snd (c_blackareav cam) =? 0) && (c_wb_offset cam =? 0) &&
                Bool.eqb (find_hint cam "linearization") linear && Bool.eqb (find_hint cam "double_line") double && negb (find_hint cam "40d_yuv")
            | None => false end
  | _ => false
  end = true ->
  exists l cam, loader_new db = Ok l /\ find_camera l "Canon" "EOS" "" = Some cam /\ no_black_area cam /\ c_wb_offset cam = 0 /\
    find_hint cam "linearization" = linear /\ find_hint cam "double_line" = double /\ find_hint cam "40d_yuv" = false.
Proof.
  intros M db linear double H. destruct (loader_new db) as [l| | |]; try discriminate H. exists l. destruct (find_camera l "Canon" "EOS" "") as [cam|]; [|discriminate H].
  exists cam. repeat (apply andb_prop in H; destruct H as [H ?]).
  split; [reflexivity|]. split; [reflexivity|]. split; [split; lia|]. split; [lia|].
  split; [apply eqb_prop; assumption|]. split; [apply eqb_prop; assumption|]. apply negb_true_iff; assumption.
Qed.

(** A table of 4096 values *)
Fixpoint upward (n : nat) (v : Z) : list Z := match n with O => [] | S n => v :: upward n (v + 4) end.
Lemma upward_length : forall n v, length (upward n v) = n.
Proof. induction n as [|n IH]; intros v; [reflexivity|]. cbn [upward length]. rewrite IH. reflexivity. Qed.
Lemma upward_nth : forall n v k, (k < n)%nat -> nth k (upward n v) 0 = v + 4 * Z.of_nat k.
Proof. induction n as [|n IH]; intros v [|k] Hk; cbn [upward nth]; try lia. rewrite IH by lia. lia. Qed.
Definition ramp : list Z := Eval vm_compute in upward (Z.to_nat 4096) 0.
Lemma ramp_eq : ramp = upward (Z.to_nat 4096) 0. Proof. vm_compute. reflexivity. Qed.
Lemma ramp_length : length ramp = Z.to_nat 4096. Proof. rewrite ramp_eq. apply upward_length. Qed.
Lemma ramp_size : Z.of_nat (length ramp) = 4096. Proof. rewrite ramp_length. apply Z2Nat.id. lia. Qed.
Lemma ramp_at : forall i, 0 <= i < 4096 -> at_ ramp i = 4 * i.
Proof. intros i Hi. unfold at_. rewrite ramp_eq, upward_nth by lia. lia. Qed.
Lemma ramp_samples : samples ramp.
Proof.
  apply Forall_forall. intros v Hv. destruct (In_nth _ _ 0 Hv) as (k & Hk & <-). pose proof ramp_size. pose proof (ramp_at (Z.of_nat k) ltac:(lia)) as R.
  unfold at_ in R. rewrite Nat2Z.id in R. rewrite R. unfold sample. lia.
Qed.
Lemma ramp_increasing : increasing ramp.
Proof. intros i j Hi Hj. rewrite ramp_size in Hj. rewrite !ramp_at by lia. lia. Qed.
Lemma ramp_gentle : not_too_steep ramp.
Proof.
  intros i Hi Hn. rewrite ramp_size in Hi. rewrite ramp_at in * by lia. unfold above, below. rewrite ramp_size.
  destruct (i =? 4096 - 1) eqn:E1; destruct (i =? 0) eqn:E2; rewrite ?ramp_at by lia; lia.
Qed.
(** 2 x 2 pixels of two components, of 12 bits *)
Definition dark_picture : picture := fun r j i => 2048 + r + 2 * j - 3 * i.
Definition dark_sample : list Z := jpeg_file [dc_code] 12 2 2 [1; 2] [0; 0] 0 [24; 231; 42; 185; 223] [].
Lemma dc_good12 : forall dbg, good_code dbg 12 dc_code.
Proof. intros dbg. destruct (dc_good dbg) as (A & B & C & _ & E). split; [exact A|]. split; [exact B|]. split; [exact C|]. split; [left; lia|exact E]. Qed.
Lemma dark_held : forall dbg, holds_jpeg dbg 2 2 2 dark_picture dark_sample.
Proof.
  intros dbg. exists [dc_code], 12, [1; 2], [0; 0], 0, [24; 231; 42; 185; 223], [], [true; true; true; true; true]. cbv zeta.
  split; [reflexivity|]. split; [reflexivity|]. split; [ncomp|]. split; [constructor; [apply dc_good12|constructor]|].
  split; [zcomp|]. split; [zcomp|]. split; [zcomp|]. split; [zcomp|]. split; [zcomp|]. split; [repeat constructor; cbn [In]; lia|]. split; [reflexivity|].
  split; [repeat constructor; cbn [length]; lia|]. split; [repeat constructor; discriminate|]. split; [constructor|].
  split; [intros r j i Hr Hj Hi; unfold dark_picture, sample; cbn [length] in Hi; lia|]. split; [|vm_compute; reflexivity].
  intros r j i Hr Hj Hi. assert (r = 0 \/ r = 1) as [R|R] by lia; assert (j = 0 \/ j = 1) as [J|J] by lia; assert (i = 0 \/ i = 1) as [I|I] by lia; subst; dc_word.
Qed.
