(** A Minolta file for the example of C63, and one whose levels are lost. *)
From Coq Require Import String Ascii ZArith List Bool Reals Lra Lia ZifyBool.
From Flocq Require Import BinarySingleNaN.
From Verif Require Import Base Num F32 Tiff Transform Image Camera Clients Dispatch.
From Verif Require Import Spec_Bits Spec_Packed Spec_Tiff Spec_Camera Spec_Known Spec_Meta Spec_File Spec_Tree Spec_TreeMore Spec_Header.
From Verif Require Import P_Srw3b P_Color1 P_File5 P_Tree6 P_Tree15.
Import ListNotations.
Local Open Scope Z_scope.

Definition minolta_fields : list field := [text_field T_Make "Minolta Co., Ltd."; text_field T_Model "DiMAGE 7"; mkfield T_Orientation 3 [6]].
Definition minolta_body : list Z := Eval vm_compute in order_mark true ++ bytes_of true 2 42 ++ bytes_of true 4 8 ++ dir_bytes true 8 0 minolta_fields.
Definition minolta_plan : plan := Eval vm_compute in Plan 0 (dir_rows true 8 (0, 0) minolta_fields) [].
Definition minolta_header (bits : Z) : list block :=
  [(size_tag, [50; 55; 55; 51; 48; 48; 48; 50; 0; 2; 0; 4; 0; 2; 0; 4; bits; 12; 0; 0]); (directory_tag, minolta_body); (0x524946, [1; 2; 3]);
   (white_tag, [0; 0; 0; 0; 1; 144; 1; 0; 1; 1; 2; 32; 7])].

Definition late_header : list block :=
  [(size_tag, [50; 55; 55; 51; 48; 48; 48; 50; 0; 2; 0; 4; 0; 2; 0; 4; 12; 12; 0; 0]); (directory_tag, minolta_body); (white_tag, [0; 0; 0; 0; 1; 144; 1; 0; 1; 1; 2; 32])].
Definition late_data : list Z := Eval vm_compute in pack 12 [291; 1110; 1929; 2748; 3840; 460; 1383; 4095].
Definition late_file : list Z := Eval vm_compute in minolta_file late_header late_data.
Lemma late_zero : forall (M : Mode) powf parse_f32, match lib_decode powf parse_f32 (one_camera "Minolta Co., Ltd." "DiMAGE 7" "") late_file with Ok img => e0 (i_wb img) | _ => B754_nan end = B754_zero false.
Proof. intros M powf parse_f32. destruct M; vm_compute; reflexivity. Qed.
Lemma zero_far : forall n, 0 < n <= 65536 -> ~ nearest (B754_zero false) (IZR n).
Proof.
  intros n Hn [_ H]. destruct (small_val n ltac:(lia)) as (F & _ & V & _). specialize (H (f32_of n) F). rewrite V in H. cbn [B2R] in H.
  replace (IZR n - IZR n)%R with 0%R in H by lra. rewrite Rabs_R0 in H. pose proof (Rabs_pos_lt (0 - IZR n)%R) as Q. assert (0 < IZR n)%R by (apply IZR_lt; lia). lra.
Qed.
Lemma levels_lost : forall (M : Mode) powf parse_f32, ~ (forall db l, loader_new db = Ok l ->
  forall blocks data w h packed a b c d t make model o cam samples rest,
  minolta_blocks blocks w h packed (a, b, c, d) t ->
  bytes (minolta_file blocks data) -> Z.of_nat (length (minolta_file blocks data)) + 16 < 2 ^ 32 ->
  names (visible [t]) make model -> has_orientation (visible [t]) o -> find_camera l make model "" = Some cam -> no_black_area cam ->
  0 < w -> Z.of_nat (length samples) = w * h -> Forall (Spec_Packed.fits 12) samples ->
  (if packed then Z.even w = true /\ data = pack 12 samples ++ rest else data = pack16 true samples ++ rest) ->
  exists img, lib_decode powf parse_f32 db (minolta_file blocks data) = Ok img /\
    (if find_hint cam "swapped_wb" then balance img c a b else balance img a b d)).
Proof.
  intros M powf parse_f32 A. destruct (camera_check M (one_camera "Minolta Co., Ltd." "DiMAGE 7" "") "Minolta Co., Ltd." "DiMAGE 7" "") as (l & cam & H1 & H2 & H3 & _); [destruct M; lazy; reflexivity|].
  pose proof (late_zero M powf parse_f32) as Z0.
  edestruct (A _ l H1 late_header late_data 4 2 true 400 256 257 544 (tree_of minolta_plan) "Minolta Co., Ltd."%string "DiMAGE 7"%string Rotate90 cam [291; 1110; 1929; 2748; 3840; 460; 1383; 4095] []) as (img & E & B).
  - split.
    + split; [|repeat (apply Forall_cons; [cbn [fst]; unfold size_tag, white_tag, directory_tag; lia|]); constructor]. apply distinct_ok. reflexivity.
    + eexists. split; [left; reflexivity|]. split; [cbn; lia|]. split; [reflexivity|]. split; [reflexivity|]. cbn; split; congruence || lia.
    + eexists. split; [right; right; left; reflexivity|]. split; [cbn; lia|]. reflexivity.
    + exists minolta_body, 0. split; [right; left; reflexivity|]. apply (is_written_ok 10 true minolta_body 8 minolta_plan). vm_compute. reflexivity.
  - apply bytes_check. vm_compute; reflexivity.
  - vm_compute; reflexivity.
  - split; first [member|apply prints_ok; vm_compute; reflexivity].
  - left. exists 6. split; [number|reflexivity].
  - exact H2.
  - exact H3.
  - lia.
  - reflexivity.
  - apply fits12_check. reflexivity.
  - split; reflexivity.
  - change (minolta_file late_header late_data) with late_file in E. rewrite E in Z0. destruct (find_hint cam "swapped_wb"); destruct B as [B _]; rewrite Z0 in B; revert B; apply zero_far; lia.
Qed.
