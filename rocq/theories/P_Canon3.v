(** Checks that concrete files are of those C57 is about. *)
From Coq Require Import String Ascii ZArith List Bool Lia ZifyBool.
From Verif Require Import Base Num F32 Tiff Transform Image Camera Spec_Bits Spec_Image Spec_Stream Spec_Huffman Spec_Ljpeg Spec_Sensor Spec_Tiff Spec_Camera Spec_Known Spec_Meta Spec_File Spec_Dng Spec_Canon.
From Verif Require Import P_Base P_Tiff3 P_Ljpeg7 P_Srw3b P_Crw4 P_File5.
Import ListNotations.
Local Open Scope Z_scope.

Lemma canon_check : forall (M : Mode) db model,
  match loader_new db with
  | Ok l => match find_camera l "Canon" model "" with
            | Some cam => (snd (c_blackareah cam) =? 0) && (snd (c_blackareav cam) =? 0) && (c_wb_offset cam =? 0) &&
                negb (find_hint cam "linearization") && negb (find_hint cam "double_line") && negb (find_hint cam "40d_yuv")
            | None => false end
  | _ => false
  end = true ->
  exists l cam, loader_new db = Ok l /\ find_camera l "Canon" model "" = Some cam /\ no_black_area cam /\ c_wb_offset cam = 0 /\
    find_hint cam "linearization" = false /\ find_hint cam "double_line" = false /\ find_hint cam "40d_yuv" = false.
Proof.
  intros M db model H. destruct (loader_new db) as [l| | |]; try discriminate H. exists l. destruct (find_camera l "Canon" model "") as [cam|]; [|discriminate H].
  exists cam. repeat (apply andb_prop in H; destruct H as [H ?]).
  split; [reflexivity|]. split; [reflexivity|]. split; [split; lia|]. split; [lia|].
  repeat split; apply negb_true_iff; assumption.
Qed.
Lemma in_rows : forall (q f : Z -> Z -> Z) w h, forallb (fun r => forallb (fun c => q r c =? f r c) (upto w)) (upto h) = true ->
  forall r c, 0 <= r < h -> 0 <= c < w -> q r c = f r c.
Proof. intros q f w h H r c Hr Hc. pose proof (upto_all w _ (upto_all h _ H r Hr) c Hc) as Q. cbv beta in Q. lia. Qed.
Lemma image_row : forall l w h f, is_image l w h f -> forall k, 0 < w -> Z.of_nat k < w * h -> nth k l 0 = f (Z.of_nat k / w) (Z.of_nat k mod w).
Proof.
  intros l w h f [Hl Hf] k Hw Hk. rewrite <- (Hf (Z.of_nat k / w) (Z.of_nat k mod w)).
  - f_equal. rewrite <- (Nat2Z.id k) at 1. f_equal. pose proof (Z.div_mod (Z.of_nat k) w). lia.
  - split; [apply Z.div_pos; lia|]. apply Z.div_lt_upper_bound; lia.
  - apply Z.mod_pos_bound; lia.
Qed.
Lemma image_list : forall l w h f vs, is_image l w h f -> 0 < w -> Z.of_nat (length vs) = w * h ->
  forallb (fun k => nth (Z.to_nat k) vs 0 =? f (k / w) (k mod w)) (upto (w * h)) = true -> l = vs.
Proof.
  intros l w h f vs Hi Hw Lv H. pose proof (proj1 Hi) as Ll. apply (nth_ext _ _ 0 0); [lia|].
  intros k Hk. rewrite (image_row l w h f Hi k Hw) by lia.
  pose proof (upto_all (w * h) _ H (Z.of_nat k) ltac:(lia)) as Q. cbv beta in Q. rewrite Nat2Z.id in Q. lia.
Qed.
Lemma dc_good15 : forall dbg, good_code dbg 15 dc_code.
Proof. intros dbg. destruct (dc_good dbg) as (A & B & C & _ & E). split; [exact A|]. split; [exact B|]. split; [exact C|]. split; [left; lia|exact E]. Qed.
(** One block of 2 x 2 pixels *)
Definition small_pic : picture := fun r j i => 16384 + 10 * r + 3 * j - 2 * i.
Definition small_data (tail : list Z) : list Z :=
  jpeg_sampled [dc_code] 15 2 2 [(1, (2, 2)); (2, (1, 1)); (3, (1, 1))] [0; 0; 0] 1 0 (stuff [26; 214; 215; 170] ++ [255; 217] ++ tail).
Lemma small_held : forall dbg tail, bytes tail -> holds_small_jpeg dbg 2 1 1 small_pic (small_data tail).
Proof.
  intros dbg tail Ht. exists [dc_code], 15, 1, 2, 3, (1, 1), (1, 1), [0; 0; 0], 1, 0, [26; 214; 215; 170], tail, [false]. cbv zeta.
  split; [reflexivity|]. split; [right; reflexivity|]. split; [ncomp|]. split; [constructor; [apply dc_good15|constructor]|].
  split; [zcomp|]. split; [lia|]. split; [lia|]. split; [zcomp|]. split; [repeat constructor; cbn; lia|]. split; [repeat constructor; cbn [In]; lia|].
  split; [reflexivity|]. split; [repeat constructor; cbn [length]; lia|]. split; [repeat constructor; discriminate|]. split; [exact Ht|].
  split; [intros r j i Hr Hj Hi; unfold small_pic, sample; lia|]. split.
  - intros r j i Hr Hj Hi. assert (r = 0) by lia. assert (j = 0) by lia.
    assert (i = 0 \/ i = 1 \/ i = 2 \/ i = 3 \/ i = 4 \/ i = 5) as [I|[I|[I|[I|[I|I]]]]] by lia; subst; dc_word.
  - vm_compute. reflexivity.
Qed.
